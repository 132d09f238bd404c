(** Runs with a writing objective: the position array being evaluated is in nobody else's hands. *)
From Coq Require Import String ZArith List Arith Bool Lia.
From Verif Require Import Prelude F64 F64Facts Num Np NpFacts ListFacts Handlers Swarms Operators Generators Topology Optimizers RunFacts RunMain StartRun Spec SpecHandlers PbestFacts Heap SpecHeap HeapFacts HeapRun HeapWrite SpecWrite.
Import ListNotations.
Local Open Scope list_scope.

(** *** Nothing written *)
Lemma upd_id : forall A (l : list A) i x, nth_error l i = Some x -> upd l i x = l.
Proof. induction l as [|y l IH]; intros [|i] x E; cbn in *; try discriminate; [injection E as ->; reflexivity|rewrite IH; auto]. Qed.
Lemma evaluate_answered : forall c e h x q i p, nth_error h (hs_position (hs x)) = Some p ->
  h_evaluate c (answered e i (e_obj e i p)) None i h x q = h_evaluate c e None i h x q.
Proof.
  intros c e h x q i p P. unfold h_evaluate.
  assert (RD : forall e', (ho p <- read (hs_position (hs x)); hlift (compute_objective_function (N := F64num) None (e_obj e' i) p)) h = (h, e_obj e' i p)) by (intros e'; unfold hbind, read, hlift; rewrite P; reflexivity).
  cbv zeta. rewrite (RD (answered e i (e_obj e i p))), (RD e). cbn [answered e_obj e_top e_tree]. rewrite Nat.eqb_refl. reflexivity.
Qed.
Lemma w_loop_h : forall c e wr pool iters, (pool = None -> forall i p, wr i p = p) -> forall m i h x q,
  w_loop c e wr pool iters m i h x q = h_loop c e pool iters m i h x q.
Proof.
  intros c e wr pool iters Q. assert (E : forall i h x q, w_evaluate c e wr pool i h x q = h_evaluate c e pool i h x q).
  { intros i h x q. unfold w_evaluate. destruct pool as [n|]; [reflexivity|]. destruct (nth_error h (hs_position (hs x))) as [p|] eqn:P; [|reflexivity].
    rewrite (Q eq_refl), (upd_id _ _ _ _ P). apply evaluate_answered. exact P. }
  induction m as [|m IH]; intros i h x q; cbn [w_loop h_loop]; [reflexivity|]. unfold w_iteration, h_iteration. rewrite E.
  destruct (h_evaluate c e pool i h x q) as [h1 [x1 q1|x1|x1 ex]]; try reflexivity. destruct (h_update c e iters i h1 x1 q1) as [h2 [x2 q2|x2|x2 ex]]; try reflexivity. apply IH.
Qed.
Lemma w_optimize_h : forall c e wr pool iters h x, (pool = None -> forall i p, wr i p = p) ->
  w_optimize c e wr pool iters h x = h_optimize c e pool iters h x.
Proof. intros c e wr pool iters h x Q. unfold w_optimize, h_optimize. rewrite w_loop_h by exact Q. reflexivity. Qed.
Lemma w_pool : forall c e wr n iters h x, w_optimize c e wr (Some n) iters h x = h_optimize c e (Some n) iters h x.
Proof. intros. apply w_optimize_h. discriminate. Qed.
Lemma w_quiet : forall c e wr pool iters h x, (forall i p, wr i p = p) -> w_optimize c e wr pool iters h x = h_optimize c e pool iters h x.
Proof. intros. apply w_optimize_h. auto. Qed.

(** *** Who holds what *)
Definition best_below (n : nat) (b : hbest) : Prop := match b with HEmpty => True | HRow a _ => a < n | HMat a => a < n end.
Record Apart (n : nat) (x : hstate) : Prop := mkApart {
  ap_pos : n <= hs_position (hs x);
  ap_vel : hs_velocity (hs x) < n;
  ap_pb : hs_pbest_pos (hs x) < n;
  ap_best : best_below n (hs_best_pos (hs x));
  ap_ph : Forall (fun a => a < n) (h_pos_history x);
  ap_vh : Forall (fun a => a < n) (h_velocity_history x) }.
Lemma best_valid : forall h b bp, best_at h b = Ok bp -> best_below (length h) b.
Proof. intros h [|a i|a] bp B; cbn in *; auto; (destruct (nth_error h a) as [m|] eqn:M; [eapply nth_lt; exact M|discriminate]). Qed.
Lemma best_le : forall n m b, n <= m -> best_below n b -> best_below m b.
Proof. intros n m [|a i|a] L B; cbn in *; auto; lia. Qed.
Lemma all_valid : forall h l l', Forall2 (at_addr h) l l' -> Forall (fun a => a < length h) l.
Proof. intros h l l' F. induction F as [|a m l l' A F IH]; constructor; auto. eapply nth_lt. exact A. Qed.
Lemma all_le : forall n m l, n <= m -> Forall (fun a => a < n) l -> Forall (fun a => a < m) l.
Proof. intros n m l L F. eapply Forall_impl; [|exact F]. cbn. intros. lia. Qed.

(** [update] puts the swarm's new positions in an array of their own. *)
Lemma h_update_apart : forall c e iters i h x o q h' x' q', Rep h x o -> h_update c e iters i h x q = (h', HNext x' q') ->
  exists n, length h <= n /\ Apart n x'.
Proof.
  intros c e iters i h x o q h' x' q' R E. unfold h_update in E.
  pose proof (swarm_at_inv _ _ _ (rep_swarm _ _ _ R)) as (p & v & pp & bp & P & V & PP & B & W).
  match type of E with context [match ?r with Ok _ => _ | Err _ => _ end] => destruct r as [opts|ex]; [|discriminate] end.
  set (s1 := h_set_rest (hs x) (set_options (hs_rest (hs x)) opts)) in E. set (w1 := set_options (o_swarm o) opts).
  assert (W1 : swarm_at h s1 = Ok w1) by (unfold w1; rewrite W; apply (swarm_at_intro h s1 p v pp bp); assumption).
  set (b := match c_kind c with Binary => None | _ => c_bounds c end) in E.
  pose proof (h_velocity_spec (e_vel e i) (c_vh c) (h_vmem x) (o_vmem o) s1 w1 (c_clamp c) b h W1 (rep_vmem _ _ _ R)) as VS. unfold agrees in VS.
  change (h_vmem (h_with_swarm x s1)) with (h_vmem x) in E.
  destruct (h_compute_velocity (e_vel e i) (c_vh c) (h_vmem x) s1 (c_clamp c) b h) as [h1 [[av hm]|ex]]; [|discriminate].
  destruct VS as [S1 VS]. destruct (compute_velocity (N := F64num) (e_vel e i) (c_vh c) (o_vmem o) w1 (c_clamp c) b) as [[nv nm]|ex']; [|contradiction].
  destruct VS as [[LV NV] NM]. cbn [fst snd] in NV, NM, LV.
  set (s2 := mkHs (hs_position s1) av (hs_pbest_pos s1) (hs_best_pos s1) (hs_rest s1)) in E. set (w2 := set_velocity w1 nv).
  assert (W2 : swarm_at h1 s2 = Ok w2).
  { unfold w2, w1. rewrite W. apply (swarm_at_intro h1 s2 p nv pp bp); [eapply keeps_at; eauto|exact NV|eapply keeps_at; eauto|eapply best_keeps; eauto]. }
  assert (K : length h <= length h1) by exact (proj1 S1).
  assert (NEXT : forall ap y, length h1 <= ap -> hs y = mkHs ap (hs_velocity s2) (hs_pbest_pos s2) (hs_best_pos s2) (hs_rest s2) ->
     h_pos_history y = h_pos_history x -> h_velocity_history y = h_velocity_history x -> Apart (length h1) y).
  { intros ap y LA Y Y1 Y2. constructor; rewrite ?Y, ?Y1, ?Y2; cbn.
    - exact LA.
    - eapply nth_lt. exact NV.
    - pose proof (nth_lt _ _ _ _ PP). lia.
    - eapply best_le; [exact K|]. eapply best_valid. exact B.
    - eapply all_le; [exact K|]. eapply all_valid. exact (rep_pos _ _ _ R).
    - eapply all_le; [exact K|]. eapply all_valid. exact (rep_vel _ _ _ R). }
  pose proof (h_position_spec (e_bh e i) (c_bh c) (h_bmem x) (o_bmem o) s2 w2 (c_bounds c) h1 W2 (keeps_mem _ _ _ _ S1 (rep_bmem _ _ _ R))) as PS. unfold agrees in PS.
  exists (length h1). split; [exact K|].
  destruct (c_kind c).
  4:{ rewrite (run_read _ _ _ nv) in E by exact NV. unfold hbind, hlift in E.
      destruct (binary_position (e_exp e) (e_bits e i) nv) as [np|ex]; [|discriminate]. unfold alloc in E. injection E as _ <- _. eapply NEXT; reflexivity. }
  all: change (h_bmem (h_with_vmem (h_with_swarm (h_with_swarm x s1) s2) hm)) with (h_bmem x) in E;
       destruct (h_compute_position (e_bh e i) (c_bh c) (h_bmem x) s2 (c_bounds c) h1) as [h2 [[ap bm]|ex]]; [|discriminate];
       destruct PS as [S2 PS]; destruct (compute_position (N := F64num) (e_bh e i) (c_bh c) (o_bmem o) w2 (c_bounds c)) as [[np nbm]|ex']; [|contradiction];
       destruct PS as [[LP NP] NBM]; cbn [fst snd] in *; injection E as _ <- _; apply (NEXT ap); [exact LP|reflexivity..].
Qed.

(** Writing the array of the swarm's positions. *)
Lemma mem_exists : forall h mem vm a X, at_mem h mem vm -> exists vm', at_mem (upd h a X) mem vm'.
Proof.
  intros h [b|] [m|] a X M; cbn in M; try contradiction; [|exists None; exact Logic.I].
  destruct (nth_error (upd h a X) b) as [m'|] eqn:E; [exists (Some m'); exact E|]. apply nth_error_None in E. rewrite upd_length in E. apply nth_lt in M. lia.
Qed.
Lemma all_other : forall h l l' a X n, Forall2 (at_addr h) l l' -> Forall (fun b => b < n) l -> n <= a -> Forall2 (at_addr (upd h a X)) l l'.
Proof.
  intros h l l' a X n F. induction F as [|b m l l' A F IH]; intros B L; constructor; inversion B; subst; auto. unfold at_addr. rewrite upd_other by lia. exact A.
Qed.
Lemma best_other : forall h b bp a X n, best_at h b = Ok bp -> best_below n b -> n <= a -> best_at (upd h a X) b = Ok bp.
Proof. intros h [|b i|b] bp a X n B L N; cbn in *; auto; rewrite upd_other by lia; exact B. Qed.
Lemma rep_write : forall h x o n X, Rep h x o -> Apart n x ->
  exists ow, Rep (upd h (hs_position (hs x)) X) x ow /\ o_swarm ow = set_position (o_swarm o) X /\ o_pos_history ow = o_pos_history o /\ o_velocity_history ow = o_velocity_history o.
Proof.
  intros h x o n X R [A1 A2 A3 A4 A5 A6].
  pose proof (swarm_at_inv _ _ _ (rep_swarm _ _ _ R)) as (p & v & pp & bp & P & V & PP & B & W).
  destruct (mem_exists _ _ _ (hs_position (hs x)) X (rep_bmem _ _ _ R)) as (bm & BM). destruct (mem_exists _ _ _ (hs_position (hs x)) X (rep_vmem _ _ _ R)) as (vm & VM).
  exists (with_vmem (with_bmem (with_swarm o (set_position (o_swarm o) X)) bm) vm). split; [|auto].
  constructor; cbn; try apply R; auto.
  - rewrite W. apply (swarm_at_intro (upd h (hs_position (hs x)) X) (hs x) X v pp bp).
    + apply upd_same. eapply nth_lt. exact P.
    + rewrite upd_other by lia. exact V.
    + rewrite upd_other by lia. exact PP.
    + eapply best_other; [exact B|exact A4|exact A1].
  - eapply all_other; [apply R|exact A5|exact A1].
  - eapply all_other; [apply R|exact A6|exact A1].
Qed.

(** *** One evaluation *)
(** The objective answers as it did for the positions [P] it was given. *)
Definition told (e : env) (P : list fmatrix) : env :=
  mkEnv (fun t X => match nth_error P t with Some p => e_obj e t p | None => e_obj e t X end) (e_vel e) (e_bh e) (e_oh e) (e_top e) (e_bits e) (e_exp e) (e_tree e).
Lemma told_snoc : forall c e P p o0 k o h C, length P = k -> PInv c (told e P) None o0 k o h C -> PInv c (told e (P ++ [p])) None o0 k o h C.
Proof.
  intros c e P p o0 k o h C LP [I1 I2 [I3 I3'] I4 I5 I6 I7 I8]. constructor; auto. split; [exact I3|]. intros t X cs HX HC. specialize (I3' t X cs HX HC). cbn in *.
  assert (T : t < length P) by (apply nth_lt in HX; lia). rewrite nth_error_app1 by exact T. exact I3'.
Qed.
Lemma evald_told : forall c e P p k o o3 cost pp pc t bp bc np, length P = k ->
  Evald c (answered e k (e_obj e k p)) None k o o3 cost pp pc t bp bc np -> Evald c (told e (P ++ [p])) None k o o3 cost pp pc t bp bc np.
Proof.
  intros c e P p k o o3 cost pp pc t bp bc np LP (E1 & E2 & E3 & E4). split; [|split; [exact E2|split; [exact E3|exact E4]]].
  cbn in *. rewrite Nat.eqb_refl in E1. rewrite nth_error_app2, LP, Nat.sub_diag by (ftypes; lia). exact E1.
Qed.
Section Written.
Variables (c : config) (e : env) (wr : writer) (iters : nat) (o0 : ostate) (m0 : fmatrix).
Definition G (P : list fmatrix) (C : list (list f64)) (o : ostate) : Prop :=
  given e wr (unhandled c) P (o_pos_history o) (o_velocity_history o) C /\ (forall p0, nth_error P 0 = Some p0 -> p0 = m0).
Definition Seen (k : nat) (P : list fmatrix) (C : list (list f64)) (o : ostate) : Prop :=
  length P = k /\ G P C o /\ PInv c (told e P) None o0 k o (o_pos_history o) C.
Lemma nth_snoc : forall A (l : list A) x t y, nth_error (l ++ [x]) t = Some y -> nth_error l t = Some y \/ t = length l /\ y = x.
Proof.
  intros A l x t y E. destruct (Nat.lt_ge_cases t (length l)) as [L|L]; [left; rewrite nth_error_app1 in E by exact L; exact E|right].
  rewrite nth_error_app2 in E by exact L. destruct (t - length l) as [|u] eqn:D; [|destruct u; discriminate]. injection E as <-. split; [lia|reflexivity].
Qed.
Lemma nth_last : forall A (l : list A) x, nth_error (l ++ [x]) (length l) = Some x.
Proof. intros. rewrite nth_error_app2 by lia. rewrite Nat.sub_diag. reflexivity. Qed.
Lemma nth_keep : forall A (l : list A) x t y, nth_error l t = Some y -> nth_error (l ++ [x]) t = Some y.
Proof. intros A l x t y E. rewrite nth_error_app1; [exact E|]. eapply nth_lt. exact E. Qed.
Lemma given_snoc : forall P X V C p v cs, given e wr (unhandled c) P X V C -> e_obj e (length P) p = Ok cs ->
  (unhandled c -> forall t Y, S t = length P -> nth_error X t = Some Y -> moved Y v p) ->
  given e wr (unhandled c) (P ++ [p]) (X ++ [wr (length P) p]) (V ++ [v]) (C ++ [cs]).
Proof.
  intros P X V C p v cs [L1 L2 L3 W O M] EC MV. constructor; rewrite ?app_length; try (cbn [length]; lia).
  - intros t y E. apply nth_snoc in E. destruct E as [E|[-> ->]]; [apply nth_keep, W, E|]. rewrite <- L1. apply nth_last.
  - intros t y E. apply nth_snoc in E. destruct E as [E|[-> ->]]; [destruct (O _ _ E) as (z & Z1 & Z2); exists z; split; [exact Z1|apply nth_keep, Z2]|].
    exists cs. split; [exact EC|]. rewrite <- L3. apply nth_last.
  - intros U t y Y Z E EX EV. apply nth_snoc in EX, EV. apply nth_snoc in E. destruct E as [E|[E ->]].
    + apply nth_lt in E as LE. destruct EX as [EX|[EX _]]; [|lia]. destruct EV as [EV|[EV _]]; [|lia]. exact (M U _ _ _ _ E EX EV).
    + destruct EX as [EX|[EX _]]; [|lia]. destruct EV as [EV|[_ ->]]; [apply nth_lt in EV; lia|]. exact (MV U _ _ E EX).
Qed.
Lemma evaluated_written : forall k h x o p q P C, Rep h x o -> s_position (o_swarm o) = wr k p -> Seen k P C o ->
  (unhandled c -> forall t Y, S t = k -> nth_error (o_pos_history o) t = Some Y -> moved Y (s_velocity (o_swarm o)) p) -> (k = 0 -> p = m0) ->
  exists h1 st, h_evaluate c (answered e k (e_obj e k p)) None k h x q = (h1, st) /\ keeps h h1 /\
    match st with
    | HNext x1 q1 => exists o1 C1, Rep h1 x1 o1 /\ Seen (S k) (P ++ [p]) C1 o1 /\ nth_error (o_pos_history o1) k = Some (s_position (o_swarm o1))
    | HBreak x1 => exists o1 C1, Rep h1 x1 o1 /\ Seen (S k) (P ++ [p]) C1 o1
    | HRaise x1 ex => exists o1, Rep h1 x1 o1 /\ G P C o1
    end.
Proof.
  intros k h x o p q P C R PW (LP & (GV & G0) & I) MV Z. pose proof (h_evaluate_spec c (answered e k (e_obj e k p)) None k h x o q R) as E.
  destruct (h_evaluate c (answered e k (e_obj e k p)) None k h x q) as [h1 st]. exists h1, st. split; [reflexivity|]. cbn [fst snd] in E. destruct E as [S1 E]. split; [exact S1|].
  pose proof (evaluate_cases c (answered e k (e_obj e k p)) None k o q) as EC.
  assert (DONE : forall o1 co pp pc t bp bc np, Evald c (answered e k (e_obj e k p)) None k o o1 co pp pc t bp bc np ->
     Seen (S k) (P ++ [p]) (C ++ [co]) o1 /\ nth_error (o_pos_history o1) k = Some (s_position (o_swarm o1))).
  { intros o1 co pp pc t bp bc np EV. pose proof (evald_told _ _ P _ _ _ _ _ _ _ _ _ _ _ LP EV) as EV'.
    pose proof (PInv_eval _ _ _ _ _ _ _ _ _ _ _ _ _ _ _ _ (fun z : None = Some 0 => match z with eq_refl => Logic.I end) (told_snoc _ _ _ p _ _ _ _ _ LP I) EV') as I'.
    destruct EV as (E1 & _ & _ & E4). cbn in E1. rewrite Nat.eqb_refl in E1.
    assert (H1 : o_pos_history o1 = o_pos_history o ++ [s_position (o_swarm o)]) by (rewrite E4; reflexivity).
    assert (H2 : o_velocity_history o1 = o_velocity_history o ++ [s_velocity (o_swarm o)]) by (rewrite E4; reflexivity).
    assert (H3 : s_position (o_swarm o1) = s_position (o_swarm o)) by (rewrite E4; reflexivity).
    split; [split; [rewrite app_length; cbn; lia|split]|].
    - unfold G. rewrite H1, H2, PW, <- LP. split; [apply given_snoc; [exact GV|rewrite LP; exact E1|]; rewrite LP; exact MV|].
      intros p0 E0. apply nth_snoc in E0. destruct E0 as [E0|[E0 ->]]; [exact (G0 _ E0)|]. apply Z. lia.
    - rewrite H1. exact I'.
    - rewrite H1, H3. assert (LX : length (o_pos_history o) = k) by exact (pi_len _ _ _ _ _ _ _ _ I). rewrite <- LX. apply nth_last. }
  destruct st as [x1 q1|x1|x1 ex], (evaluate_swarm c (answered e k (e_obj e k p)) None k o q) as [o1 q1'|o1|o1 ex']; try contradiction.
  - destruct E as [R1 ->]. destruct EC as (co & pp & pc & t & bp & bc & np & EV & _). destruct (DONE _ _ _ _ _ _ _ _ EV) as [D1 D2]. exists o1, (C ++ [co]). auto.
  - destruct EC as (co & pp & pc & t & bp & bc & np & EV & _). destruct (DONE _ _ _ _ _ _ _ _ EV) as [D1 D2]. exists o1, (C ++ [co]). auto.
  - destruct E as [R1 _]. exists o1. split; [exact R1|]. destruct EC; exact (conj GV G0).
Qed.

(** *** The loop *)
Variables (h0 : heap) (a0 : addr).
Hypothesis A0 : a0 < length h0.
Definition Frame (h : heap) : Prop :=
  length h0 <= length h /\ nth_error h a0 = Some (wr 0 m0) /\ forall a m, a <> a0 -> nth_error h0 a = Some m -> nth_error h a = Some m.
Lemma frame_keeps : forall h h', Frame h -> keeps h h' -> Frame h'.
Proof. intros h h' (F1 & F2 & F3) S. pose proof (proj1 S). split; [lia|]. split; [eapply keeps_at; eauto|]. intros a m N M. eapply keeps_at; eauto. Qed.
Lemma frame_write : forall h a X, Frame h -> length h0 <= a -> Frame (upd h a X).
Proof.
  intros h a X (F1 & F2 & F3) L. split; [rewrite upd_length; exact F1|]. split; [rewrite upd_other by lia; exact F2|].
  intros b m N M. rewrite upd_other; [apply F3; assumption|]. apply nth_lt in M. lia.
Qed.
Definition Ready (k : nat) (h : heap) (x : hstate) (P : list fmatrix) (C : list (list f64)) (o : ostate) : Prop :=
  0 < k /\ Rep h x o /\ Frame h /\ Seen k P C o /\ (exists n, length h0 <= n /\ Apart n x) /\
  (unhandled c -> forall t Y, S t = k -> nth_error (o_pos_history o) t = Some Y -> moved Y (s_velocity (o_swarm o)) (s_position (o_swarm o))).
Definition Over (h : heap) (x : hstate) (good : bool) : Prop :=
  exists o P C k, Rep h x o /\ Frame h /\ G P C o /\ (good = true -> 0 < k /\ Seen k P C o).
Lemma entry_map2 : forall A B D (f : A -> B -> D) X V i j x v, entry X i j = Some x -> entry V i j = Some v -> entry (map2 (map2 f) X V) i j = Some (f x v).
Proof.
  intros A B D f X V i j x v EX EV. unfold entry in *. rewrite nth_error_map2. destruct (nth_error X i) as [r|]; [|discriminate]. destruct (nth_error V i) as [r'|]; [|discriminate].
  rewrite nth_error_map2, EX, EV. reflexivity.
Qed.
Lemma sum_moved : forall X V : fmatrix, moved X V (map2 (map2 fadd) X V).
Proof.
  intros X V i j x v EX EV. exact (entry_map2 _ _ _ fadd X V i j x v EX EV).
Qed.
Lemma update_ready : forall k h x q P C o, Rep h x o -> Frame h -> Seen (S k) P C o -> nth_error (o_pos_history o) k = Some (s_position (o_swarm o)) ->
  exists h1 st, h_update c e iters k h x q = (h1, st) /\
    match st with HNext x1 q1 => exists o1, Ready (S k) h1 x1 P C o1 | HBreak _ => False | HRaise x1 ex => Over h1 x1 false end.
Proof.
  intros k h x q P C o R F (LP & GV & I) LAST. pose proof (h_update_spec c e iters k h x o q R) as U. pose proof (h_update_apart c e iters k h x o q) as AP.
  destruct (h_update c e iters k h x q) as [h1 st]. exists h1, st. split; [reflexivity|]. cbn [fst snd] in U. destruct U as [S1 U].
  pose proof (update_cases c e iters k o q) as UC.
  destruct st as [x1 q1|x1|x1 ex], (update_swarm c e iters k o q) as [o1 q1'|o1|o1 ex']; try contradiction.
  - destruct U as [R1 ->]. destruct UC as (_ & CE & opts & v & vm & p & bm & UP). exists o1. split; [lia|]. split; [exact R1|]. split; [eapply frame_keeps; eauto|].
    split; [split; [exact LP|split]|].
    + unfold G. rewrite (ce_ph _ _ CE), (ce_vh _ _ CE). exact GV.
    + rewrite (ce_ph _ _ CE). eapply PInv_core; eauto.
    + split; [destruct (AP _ _ _ R eq_refl) as (n & N & A); exists n; split; [pose proof (proj1 F); lia|exact A]|].
      intros [UB UK] t Y T EY. injection T as ->. rewrite (ce_ph _ _ CE), LAST in EY. injection EY as <-.
      destruct UP as (UP & SW & _). rewrite SW. cbn [set_position s_position s_velocity set_velocity set_options].
      assert (CP : compute_position (N := F64num) (e_bh e k) (c_bh c) (o_bmem o) (set_velocity (set_options (o_swarm o) opts) v) (c_bounds c) = Ok (p, bm)) by (destruct (c_kind c); try congruence; apply UP).
      unfold compute_position in CP. rewrite UB in CP. destruct (negb _) in CP; [discriminate|]. injection CP as <- _. exact (sum_moved _ _).
  - destruct U as [R1 _]. destruct UC as [CE _]. exists o1, P, C, 0. split; [exact R1|]. split; [eapply frame_keeps; eauto|]. split; [|discriminate].
    unfold G. rewrite (ce_ph _ _ CE), (ce_vh _ _ CE). exact GV.
Qed.
(** From the array the objective has written to the end of the pass. *)
Lemma pass : forall k h x o p q P C, Rep h x o -> Frame h -> s_position (o_swarm o) = wr k p -> Seen k P C o ->
  (unhandled c -> forall t Y, S t = k -> nth_error (o_pos_history o) t = Some Y -> moved Y (s_velocity (o_swarm o)) p) -> (k = 0 -> p = m0) ->
  exists h1 st, match h_evaluate c (answered e k (e_obj e k p)) None k h x q with (h, HNext o' q') => h_update c e iters k h o' q' | r => r end = (h1, st) /\
    match st with HNext x1 q1 => exists o1 P1 C1, Ready (S k) h1 x1 P1 C1 o1 | HBreak x1 => Over h1 x1 true | HRaise x1 ex => Over h1 x1 false end.
Proof.
  intros k h x o p q P C R F PW SE MV Z. destruct (evaluated_written k h x o p q P C R PW SE MV Z) as (h1 & st & E & S1 & D). rewrite E.
  pose proof (frame_keeps _ _ F S1) as F1. destruct st as [x1 q1|x1|x1 ex].
  - destruct D as (o1 & C1 & R1 & SE1 & L1). destruct (update_ready k h1 x1 q1 _ _ _ R1 F1 SE1 L1) as (h2 & st2 & E2 & D2). exists h2, st2. split; [exact E2|].
    destruct st2 as [x2 q2|x2|x2 ex]; [destruct D2 as (o2 & D2); eauto|contradiction|exact D2].
  - destruct D as (o1 & C1 & R1 & SE1). exists h1, (HBreak x1). split; [reflexivity|]. exists o1, (P ++ [p]), C1, (S k). split; [exact R1|]. split; [exact F1|]. split; [apply SE1|]. intros _. split; [lia|exact SE1].
  - destruct D as (o1 & R1 & G1). exists h1, (HRaise x1 ex). split; [reflexivity|]. exists o1, P, C, 0. split; [exact R1|]. split; [exact F1|]. split; [exact G1|discriminate].
Qed.
Definition loop_over (z : heap * hloop_end) : Prop :=
  match z with (h, HDone x) => Over h x true | (h, HLRaise x _) => Over h x false end.
Lemma loop_ready : forall m k h x q P C o, Ready k h x P C o -> loop_over (w_loop c e wr None iters m k h x q).
Proof.
  induction m as [|m IH]; intros k h x q P C o (K0 & R & F & SE & (n & N & A) & MV); cbn [w_loop].
  - exists o, P, C, k. split; [exact R|]. split; [exact F|]. split; [apply SE|]. intros _. split; [exact K0|exact SE].
  - unfold w_iteration, w_evaluate. pose proof (swarm_at_inv _ _ _ (rep_swarm _ _ _ R)) as (p & v & pp & bp & PA & _ & _ & _ & W). rewrite PA.
    destruct (rep_write h x o n (wr k p) R A) as (ow & RW & SW & HW & VW).
    assert (PW : s_position (o_swarm o) = p) by (rewrite W; reflexivity).
    assert (SE' : Seen k P C ow).
    { destruct SE as (LP & GV & I). split; [exact LP|]. split; [unfold G; rewrite HW, VW; exact GV|]. rewrite HW.
      destruct I as [I1 I2 I3 I4 I5 I6 I7 I8]. constructor; rewrite ?SW; auto. rewrite HW. exact I2. }
    assert (FW : Frame (upd h (hs_position (hs x)) (wr k p))) by (apply frame_write; [exact F|]; pose proof (ap_pos _ _ A); lia).
    assert (MV' : unhandled c -> forall t Y, S t = k -> nth_error (o_pos_history ow) t = Some Y -> moved Y (s_velocity (o_swarm ow)) p).
    { rewrite HW, SW, <- PW. exact MV. }
    assert (PW' : s_position (o_swarm ow) = wr k p) by (rewrite SW; reflexivity).
    destruct (pass k _ x ow p q P C RW FW PW' SE' MV' (fun z => ltac:(exfalso; lia))) as (h1 & st & E & D). rewrite E.
    destruct st as [x1 q1|x1|x1 ex]; [destruct D as (o1 & P1 & C1 & D); eapply IH; exact D|exact D|exact D].
Qed.
End Written.

(** *** The whole call *)
Lemma construct_apart : forall c top dr init h0 h x, h_construct c top dr init h0 = (h, Ok x) -> init_at h0 init (c_init c) ->
  hs_velocity (hs x) <> hs_position (hs x) /\ hs_best_pos (hs x) = HEmpty /\ h_pos_history x = [] /\ h_velocity_history x = [] /\ h_bmem x = None.
Proof.
  intros c top dr init h0 h x E I. unfold h_construct in E. rewrite (init_read _ _ _ _ _ I) in E. unfold hbind at 1, hlift in E.
  destruct (construct (with_init c (c_init c)) top dr) as [o|ex]; [|discriminate]. unfold h_new_swarm in E. destruct init as [a|]; cbn in E.
  - injection E as _ <-. cbn. split; [|auto]. unfold init_at, at_mem in I. destruct (c_init c) as [m|]; [|contradiction]. apply nth_lt in I. lia.
  - injection E as _ <-. cbn. rewrite app_length. cbn. split; [lia|auto].
Qed.
Definition rewritten (o : ostate) (X : fmatrix) : ostate := with_swarm o (set_position (set_pbest (o_swarm o) X (s_pbest_cost (o_swarm o))) X).
Lemma fresh_np : forall c top dr o, construct c top dr = Ok o -> s_best_np (o_swarm o) = false.
Proof.
  intros c top dr o E. destruct (construct_inv _ _ _ _ E) as (s & M & -> & _). cbn. unfold make_swarm, create_swarm in M.
  destruct (c_kind c); repeat match type of M with bind ?z _ = Ok _ => apply bind_Ok in M; destruct M as (? & _ & M) | (let _ := _ in _) = Ok _ => cbv zeta in M end.
  all: injection M as <-; reflexivity.
Qed.
Lemma written_all : forall c top dr init h0 h x e wr iters h' x' r m,
  init_at h0 init (c_init c) -> h_construct c top dr init h0 = (h, Ok x) -> w_optimize c e wr None iters h x = (h', (x', r)) ->
  nth_error h (hs_position (hs x)) = Some m ->
  exists o P C, Rep h' x' o /\ given e wr (unhandled c) P (o_pos_history o) (o_velocity_history o) C /\ (forall p0, nth_error P 0 = Some p0 -> p0 = m) /\
    (0 < iters -> nth_error h' (hs_position (hs x)) = Some (wr 0 m) /\ untouched_but (hs_position (hs x)) h h') /\
    (forall v y, r = Ok (v, y) -> (exists X0, nth_error (o_pos_history o) 0 = Some X0 /\ length X0 = length (s_pbest_pos (o_swarm o))) /\ leader (s_pbest_pos (o_swarm o)) (s_pbest_cost (o_swarm o)) y /\
       forall X0 a z0 z w, nth_error (o_pos_history o) 0 = Some X0 -> nth_error X0 a = Some z0 ->
         nth_error (s_pbest_pos (o_swarm o)) a = Some z -> nth_error (s_pbest_cost (o_swarm o)) a = Some w -> best_of_run (o_pos_history o) C a z0 z w).
Proof.
  intros c top dr init h0 h x e wr iters h' x' r m IA HC E M.
  pose proof (h_construct_spec c top dr init h0 IA) as HS. destruct (construct c top dr) as [o|ex] eqn:CO; [|rewrite HC in HS; discriminate].
  destruct HS as (h1 & x1 & HS & _ & R & PB & _). rewrite HC in HS. injection HS as <- <-.
  destruct (construct_apart _ _ _ _ _ _ _ HC IA) as (AV & AB & AP & AH & BM).
  pose proof (swarm_at_inv _ _ _ (rep_swarm _ _ _ R)) as (p & v & pp & bp & PA & VA & PPA & BA & W).
  assert (PW : p = m) by congruence. subst p. rewrite PB in PPA. assert (PP : pp = m) by congruence. subst pp.
  assert (HP : o_pos_history o = []) by (pose proof (rep_pos _ _ _ R) as F; rewrite AP in F; inversion F; reflexivity).
  assert (HV : o_velocity_history o = []) by (pose proof (rep_vel _ _ _ R) as F; rewrite AH in F; inversion F; reflexivity).
  assert (OB : o_bmem o = None) by (pose proof (rep_bmem _ _ _ R) as F; rewrite BM in F; unfold at_mem in F; destruct (o_bmem o); [contradiction|reflexivity]).
  set (x1 := h_with_swarm (h_start c x) (h_set_rest (hs (h_start c x)) (set_pbest_cost (hs_rest (hs (h_start c x))) (repeat finf (c_n c))))).
  assert (HS : hs (h_start c x) = hs x) by (unfold h_start; destruct (c_kind c); reflexivity).
  assert (ST : forall hw X, nth_error hw (hs_position (hs x)) = Some X -> nth_error hw (hs_velocity (hs x)) = Some v -> Rep hw x1 (started c (rewritten o X))).
  { intros hw X HX HVX. destruct (started_facts c (rewritten o X)) as (T1 & T2 & T3 & T4 & T5 & T6 & T7 & T8 & _).
    assert (X1 : h_top x1 = h_top x /\ h_cost_history x1 = h_cost_history x /\ h_mean_pbest_history x1 = h_mean_pbest_history x /\ h_mean_neighbor_history x1 = h_mean_neighbor_history x /\
      h_pos_history x1 = h_pos_history x /\ h_velocity_history x1 = h_velocity_history x /\ h_vmem x1 = Some (hs_position (hs x)) /\
      h_bmem x1 = match c_kind c with Binary => None | _ => Some (hs_position (hs x)) end) by (unfold x1, h_start; destruct (c_kind c); cbn; rewrite ?BM; auto 10).
    destruct X1 as (Y1 & Y2 & Y3 & Y4 & Y5 & Y6 & Y7 & Y8).
    assert (Y9 : hs x1 = h_set_rest (hs x) (set_pbest_cost (hs_rest (hs x)) (repeat finf (c_n c)))) by (unfold x1; cbn; rewrite HS; reflexivity).
    constructor.
    - rewrite T7, Y9. change (o_swarm (rewritten o X)) with (set_position (set_pbest (o_swarm o) X (s_pbest_cost (o_swarm o))) X). rewrite W.
      apply (swarm_at_intro hw (h_set_rest (hs x) (set_pbest_cost (hs_rest (hs x)) (repeat finf (c_n c)))) X v X bp); cbn; [exact HX|exact HVX|rewrite PB; exact HX|].
      rewrite AB in BA |- *. exact BA.
    - rewrite T1, Y1. apply R.
    - rewrite Y8. unfold started, start_pbest, start_memory. destruct (c_kind c); cbn; try exact HX. rewrite OB. exact Logic.I.
    - rewrite Y7, T8. exact HX.
    - rewrite T2, Y2. apply R.
    - rewrite T3, Y3. apply R.
    - rewrite T4, Y4. apply R.
    - rewrite T5, Y5, AP. cbn. rewrite HP. constructor.
    - rewrite T6, Y6, AH. cbn. rewrite HV. constructor. }
  assert (S0 : forall X, Seen c e wr (rewritten o X) m 0 [] [] (started c (rewritten o X))).
  { intros X. destruct (started_facts c (rewritten o X)) as (T1 & T2 & T3 & T4 & T5 & T6 & T7 & T8 & _). split; [reflexivity|].
    assert (Q5 : o_pos_history (started c (rewritten o X)) = []) by (rewrite T5; exact HP). assert (Q6 : o_velocity_history (started c (rewritten o X)) = []) by (rewrite T6; exact HV).
    split; [split; [rewrite Q5, Q6|intros p0 Q; discriminate]|rewrite Q5; apply PInv_start].
    constructor; try reflexivity; [intros [|t]; discriminate|intros [|t]; discriminate|intros _ [|t]; discriminate]. }
  unfold w_optimize in E. fold x1 in E.
  assert (FINAL : forall z h1 x2, Over c e wr (rewritten o z) m h (hs_position (hs x)) h1 x2 true -> z = wr 0 m -> let (h2, r2) := h_final x2 h1 in
     exists o P C, Rep h2 x2 o /\ given e wr (unhandled c) P (o_pos_history o) (o_velocity_history o) C /\ (forall p0, nth_error P 0 = Some p0 -> p0 = m) /\
    (0 < iters -> nth_error h2 (hs_position (hs x)) = Some (wr 0 m) /\ untouched_but (hs_position (hs x)) h h2) /\
    (forall v y, r2 = Ok (v, y) -> (exists X0, nth_error (o_pos_history o) 0 = Some X0 /\ length X0 = length (s_pbest_pos (o_swarm o))) /\ leader (s_pbest_pos (o_swarm o)) (s_pbest_cost (o_swarm o)) y /\
       forall X0 a z0 z w, nth_error (o_pos_history o) 0 = Some X0 -> nth_error X0 a = Some z0 ->
         nth_error (s_pbest_pos (o_swarm o)) a = Some z -> nth_error (s_pbest_cost (o_swarm o)) a = Some w -> best_of_run (o_pos_history o) C a z0 z w)).
  { intros z h1 x2 (o2 & P & C & k & R2 & F2 & (G2 & G0) & SE) ZE. destruct (SE eq_refl) as (K0 & LP & _ & I).
    assert (BEST : forall X0 a z0 z w, nth_error (o_pos_history o2) 0 = Some X0 -> nth_error X0 a = Some z0 ->
         nth_error (s_pbest_pos (o_swarm o2)) a = Some z -> nth_error (s_pbest_cost (o_swarm o2)) a = Some w -> best_of_run (o_pos_history o2) C a z0 z w).
    { intros X0 a z0 y w HX HZ HY HW. apply (pi_best _ _ _ _ _ _ _ _ I); [|exact HY|exact HW]. cbn.
      destruct (nth_error P 0) as [p0|] eqn:P0; [|apply nth_error_None in P0; apply nth_lt in HX; rewrite (gv_len _ _ _ _ _ _ _ G2) in HX; lia].
      pose proof (gv_left _ _ _ _ _ _ _ G2 _ _ P0) as Q. rewrite (G0 _ eq_refl) in Q. rewrite ZE. pose proof (eq_trans (eq_sym HX) Q) as QQ. injection QQ as ->. exact HZ. }
    unfold h_final. rewrite (run_swarm _ _ _ _ _ (rep_swarm _ _ _ R2)).
    assert (REST : Rep h1 x2 o2 /\ given e wr (unhandled c) P (o_pos_history o2) (o_velocity_history o2) C /\ (forall p0, nth_error P 0 = Some p0 -> p0 = m) /\
      (0 < iters -> nth_error h1 (hs_position (hs x)) = Some (wr 0 m) /\ untouched_but (hs_position (hs x)) h h1)).
    { split; [exact R2|]. split; [exact G2|]. split; [exact G0|]. intros _. destruct F2 as (_ & F2 & F3). split; [exact F2|]. intros b z' N Z. exact (F3 _ _ N Z). }
    destruct REST as (Q1 & Q2 & Q3 & Q4).
    destruct (negb (s_best_np (o_swarm o2))); [cbn; exists o2, P, C; split; [exact Q1|split; [exact Q2|split; [exact Q3|split; [exact Q4|discriminate]]]]|]. unfold hbind, hlift.
    destruct (np_argmin (N := F64num) (s_pbest_cost (o_swarm o2))) as [j|] eqn:AM; [|cbn; exists o2, P, C; split; [exact Q1|split; [exact Q2|split; [exact Q3|split; [exact Q4|discriminate]]]]]. cbn [bind].
    destruct (nth_error (s_pbest_pos (o_swarm o2)) j) as [y|] eqn:NJ; cbn; exists o2, P, C; (split; [exact Q1|split; [exact Q2|split; [exact Q3|split; [exact Q4|]]]]); [|discriminate].
    intros v' y' Y. injection Y as <- <-. split.
    { destruct (pi_n _ _ _ _ _ _ _ _ I K0) as (LN & LF & _). pose proof (pi_len _ _ _ _ _ _ _ _ I) as LH. pose proof (pi_pp _ _ _ _ _ _ _ _ I) as LPP.
      destruct (nth_error_ex (o_pos_history o2) 0) as (X0 & HX0); [ftypes; lia|]. exists X0. split; [exact HX0|].
      rewrite Forall_forall in LF. pose proof (LF _ (nth_error_In _ _ HX0)) as LX. ftypes. lia. }
    split; [|exact BEST].
    assert (NN : nonan (s_pbest_cost (o_swarm o2))).
    { apply Forall_forall. intros w HW. apply In_nth_error in HW. destruct HW as (a & HW).
      destruct (pi_n _ _ _ _ _ _ _ _ I K0) as (LN & _). pose proof (pi_pc _ _ _ _ _ _ _ _ I) as LC. pose proof (pi_pp _ _ _ _ _ _ _ _ I) as LPP.
      pose proof (nth_lt _ _ _ _ HW) as LA. assert (LA0 : a < length (s_pbest_pos (o_swarm (rewritten o z)))) by (ftypes; lia). assert (LA1 : a < length (s_pbest_pos (o_swarm o2))) by (ftypes; lia).
      destruct (nth_error_ex _ _ LA0) as (q0 & HQ0). destruct (nth_error_ex _ _ LA1) as (q1 & HQ1).
      destruct (pi_best _ _ _ _ _ _ _ _ I _ _ _ _ HQ0 HQ1 HW) as [(-> & _)|(LT & _)]; [reflexivity|]. apply flt_notnan_l in LT. exact LT. }
    destruct (np_argmin_spec _ _ NN AM) as (w & HW & LE & _). exists j, w. split; [exact NJ|]. split; [exact HW|]. intros j' w' HJ. apply fle_nlt. exact (LE _ _ HJ). }
  destruct iters as [|n].
  - cbn [w_loop] in E. pose proof (ST h m PA VA) as R1. destruct (h_final x1 h) as [h2 r2] eqn:HF. injection E as <- <- <-.
    unfold h_final in HF. rewrite (run_swarm _ _ _ _ _ (rep_swarm _ _ _ R1)) in HF. destruct (S0 m) as (_ & (G1 & _) & _).
    assert (H2 : h2 = h /\ forall v y, r2 <> Ok (v, y)).
    { assert (NP : s_best_np (o_swarm (started c (rewritten o m))) = false).
      { destruct (started_facts c (rewritten o m)) as (_ & _ & _ & _ & _ & _ & T7 & _). rewrite T7. cbn. exact (fresh_np _ _ _ _ CO). }
      rewrite NP in HF. cbn in HF. injection HF as <- <-. split; [reflexivity|discriminate]. }
    destruct H2 as (-> & NR). exists (started c (rewritten o m)), [], []. split; [exact R1|]. split; [exact G1|]. split; [intros p0 Q; discriminate|]. split; [lia|].
    intros v' y Y. contradiction (NR _ _ Y).
  - cbn [w_loop] in E. unfold w_iteration, w_evaluate in E. change (hs_position (hs x1)) with (hs_position (hs (h_start c x))) in E. rewrite HS, PA in E.
    set (hw := upd h (hs_position (hs x)) (wr 0 m)) in *.
    assert (LA : hs_position (hs x) < length h) by (eapply nth_lt; exact PA).
    assert (RW : Rep hw x1 (started c (rewritten o (wr 0 m)))) by (apply ST; [apply upd_same; exact LA|unfold hw; rewrite upd_other by congruence; exact VA]).
    assert (FW : Frame wr m h (hs_position (hs x)) hw).
    { split; [unfold hw; rewrite upd_length; lia|]. split; [apply upd_same; exact LA|]. intros b z N Z. unfold hw. rewrite upd_other by congruence. exact Z. }
    assert (PS : s_position (o_swarm (started c (rewritten o (wr 0 m)))) = wr 0 m) by (destruct (started_facts c (rewritten o (wr 0 m))) as (_ & _ & _ & _ & _ & _ & T7 & _); rewrite T7; reflexivity).
    destruct (pass c e wr (S n) (rewritten o (wr 0 m)) m h (hs_position (hs x)) LA 0 hw x1 _ m [] [] [] RW FW PS (S0 _) (fun _ t Y T => ltac:(discriminate T)) (fun _ => eq_refl)) as (h2 & st & EP & D).
    rewrite EP in E. assert (LO : loop_over c e wr (rewritten o (wr 0 m)) m h (hs_position (hs x)) (match st with HNext o' q' => w_loop c e wr None (S n) n 1 h2 o' q' | HBreak o' => (h2, HDone o') | HRaise o' ex => (h2, HLRaise o' ex) end)).
    { destruct st as [x2 q2|x2|x2 ex]; [|exact D|exact D]. destruct D as (o1 & P1 & C1 & D). eapply loop_ready; [exact LA|exact D]. }
    assert (E' : match (match st with HNext o' q' => w_loop c e wr None (S n) n 1 h2 o' q' | HBreak o' => (h2, HDone o') | HRaise o' ex => (h2, HLRaise o' ex) end) with
      | (h, HLRaise o' x) => (h, (o', Err x)) | (h, HDone o') => let (h, r) := h_final o' h in (h, (o', r)) end = (h', (x', r))) by (destruct st; exact E).
    destruct (match st with HNext o' q' => w_loop c e wr None (S n) n 1 h2 o' q' | HBreak o' => (h2, HDone o') | HRaise o' ex => (h2, HLRaise o' ex) end) as [h3 [x3|x3 ex]]; cbn [loop_over] in LO.
    + pose proof (FINAL _ _ _ LO eq_refl) as Z. destruct (h_final x3 h3) as [h4 r4]. injection E' as <- <- <-. exact Z.
    + injection E' as <- <- <-. destruct LO as (o2 & P & C & k & R2 & F2 & (G2 & G0) & _). exists o2, P, C. split; [exact R2|]. split; [exact G2|]. split; [exact G0|].
      split; [|discriminate]. intros _. destruct F2 as (_ & F2 & F3). split; [exact F2|]. intros b z' N Z. exact (F3 _ _ N Z).
Qed.

Lemma written : forall c top dr init h0 h x e wr iters h' x' r,
  init_at h0 init (c_init c) -> h_construct c top dr init h0 = (h, Ok x) -> w_optimize c e wr None iters h x = (h', (x', r)) ->
  exists o P C, Rep h' x' o /\ given e wr (unhandled c) P (o_pos_history o) (o_velocity_history o) C /\
    (forall p, nth_error P 0 = Some p -> nth_error h (hs_position (hs x)) = Some p) /\
    (forall v y, r = Ok (v, y) -> leader (s_pbest_pos (o_swarm o)) (s_pbest_cost (o_swarm o)) y /\
       forall X a z0 z w, nth_error (o_pos_history o) 0 = Some X -> nth_error X a = Some z0 ->
         nth_error (s_pbest_pos (o_swarm o)) a = Some z -> nth_error (s_pbest_cost (o_swarm o)) a = Some w -> best_of_run (o_pos_history o) C a z0 z w).
Proof.
  intros c top dr init h0 h x e wr iters h' x' r IA HC E.
  pose proof (h_construct_spec c top dr init h0 IA) as HS. destruct (construct c top dr) as [o|ex] eqn:CO; [|rewrite HC in HS; discriminate].
  destruct HS as (h1 & x1 & HS & _ & R & _). rewrite HC in HS. injection HS as <- <-.
  pose proof (swarm_at_inv _ _ _ (rep_swarm _ _ _ R)) as (m & v & pp & bp & PA & _).
  destruct (written_all _ _ _ _ _ _ _ _ _ _ _ _ _ _ IA HC E PA) as (o' & P & C & R' & G' & G0 & _ & B). exists o', P, C. split; [exact R'|]. split; [exact G'|].
  split; [intros p HP; rewrite (G0 _ HP); exact PA|]. intros v' y Y. exact (proj2 (B _ _ Y)).
Qed.
Lemma returned_written : forall c top dr init h0 h x e wr iters h' x' v y,
  init_at h0 init (c_init c) -> h_construct c top dr init h0 = (h, Ok x) -> w_optimize c e wr None iters h x = (h', (x', Ok (v, y))) ->
  exists o t p, Rep h' x' o /\ nth_error (o_pos_history o) t = Some (wr t p) /\ In y (wr t p).
Proof.
  intros c top dr init h0 h x e wr iters h' x' v y IA HC E.
  pose proof (h_construct_spec c top dr init h0 IA) as HS. destruct (construct c top dr) as [o|ex] eqn:CO; [|rewrite HC in HS; discriminate].
  destruct HS as (h1 & x1 & HS & _ & R & _). rewrite HC in HS. injection HS as <- <-.
  pose proof (swarm_at_inv _ _ _ (rep_swarm _ _ _ R)) as (m & v0 & pp & bp & PA & _).
  destruct (written_all _ _ _ _ _ _ _ _ _ _ _ _ _ _ IA HC E PA) as (o' & P & C & R' & G' & G0 & _ & B).
  destruct (B _ _ eq_refl) as ((X0 & HX0 & LX) & (j & w & HY & HW & _) & BE).
  assert (ROW : forall t X, nth_error (o_pos_history o') t = Some X -> In y X -> exists o t p, Rep h' x' o /\ nth_error (o_pos_history o) t = Some (wr t p) /\ In y (wr t p)).
  { intros t X HX I. destruct (nth_error P t) as [p|] eqn:HP; [|apply nth_error_None in HP; apply nth_lt in HX; rewrite (gv_len _ _ _ _ _ _ _ G') in HX; lia].
    pose proof (gv_left _ _ _ _ _ _ _ G' _ _ HP) as Q. pose proof (eq_trans (eq_sym HX) Q) as QQ. injection QQ as ->. exists o', t, p. split; [exact R'|]. split; [exact Q|exact I]. }
  destruct (nth_error_ex X0 j) as (z0 & HZ); [apply nth_lt in HY; ftypes; lia|].
  destruct (BE _ _ _ _ _ HX0 HZ HY HW) as [(_ & -> & _)|(_ & t & (X & cs & HX & _ & HYX & _) & _)].
  - eapply ROW; [exact HX0|]. eapply nth_error_In. exact HZ.
  - eapply ROW; [exact HX|]. eapply nth_error_In. exact HYX.
Qed.
Lemma init_written : forall c top dr a m h0 h x e wr iters h' x' r,
  nth_error h0 a = Some m -> c_init c = Some m -> h_construct c top dr (Some a) h0 = (h, Ok x) -> 0 < iters -> w_optimize c e wr None iters h x = (h', (x', r)) ->
  nth_error h' a = Some (wr 0 m) /\ untouched_but a h0 h'.
Proof.
  intros c top dr a m h0 h x e wr iters h' x' r HA CI HC LI E. assert (IA : init_at h0 (Some a) (c_init c)) by (rewrite CI; exact HA).
  pose proof (h_construct_spec c top dr (Some a) h0 IA) as HS. destruct (construct c top dr) as [o|ex] eqn:CO; [|rewrite HC in HS; discriminate].
  destruct HS as (h1 & x1 & HS & K & R & _ & PA). rewrite HC in HS. injection HS as <- <-.
  assert (PM : nth_error h (hs_position (hs x)) = Some m) by (rewrite PA; eapply keeps_at; [exact K|exact HA]).
  destruct (written_all _ _ _ _ _ _ _ _ _ _ _ _ _ _ IA HC E PM) as (o' & P & C & R' & G' & G0 & F & _). rewrite PA in F. destruct (F LI) as [F1 F2].
  split; [exact F1|]. intros b z N Z. apply F2; [exact N|]. eapply keeps_at; [exact K|exact Z].
Qed.
