(** Runs whose handlers are named wrongly, or lack their bounds (C53). *)
From Coq Require Import String ZArith List Arith Bool Lia.
From Verif Require Import Prelude ListFacts F64 Num Np Handlers Swarms Operators Generators Topology Optimizers Spec SpecDyn RunFacts PbestFacts.
Import ListNotations.
Local Open Scope string_scope.
Local Open Scope list_scope.
Local Open Scope nat_scope.

Lemma bh_unknown : forall (N : Num) st dr mem (b : bounds N) pos,
  ~ In st ["nearest"; "reflective"; "shrink"; "random"; "intermediate"; "periodic"] -> bh_call st dr mem b pos = Err KeyError.
Proof.
  intros N st dr mem b pos H. unfold bh_call. assert (K : bh_known st = false); [|rewrite K; reflexivity].
  unfold bh_known. apply not_true_is_false. intros E. apply existsb_exists in E. destruct E as (x & I & E). apply String.eqb_eq in E. subst. auto.
Qed.
Lemma vh_unknown : forall (N : Num) st c mem k (vel : matrix N),
  ~ In st ["unmodified"; "adjust"; "invert"; "zero"] -> vh_call st c mem k vel = Err KeyError.
Proof.
  intros N st c mem k vel H. unfold vh_call. assert (K : vh_known st = false); [|rewrite K; reflexivity].
  unfold vh_known. apply not_true_is_false. intros E. apply existsb_exists in E. destruct E as (x & I & E). apply String.eqb_eq in E. subst. auto.
Qed.

(** The first iteration of a call. *)
Lemma first_iteration : forall c e pool iters o o' r, 0 < c_ftol_iter c -> 0 < iters -> pool <> Some 0 -> optimize c e pool iters o = (o', r) ->
  match evaluate_swarm c e pool 0 (started c o) [] with
  | Raise o1 x => o' = o1 /\ r = Err x
  | Break _ => False
  | Next o1 q => match update_swarm c e iters 0 o1 q with
                 | Raise o2 x => o' = o2 /\ r = Err x
                 | Break _ => False
                 | Next o2 q2 => (o', r) = match opt_loop c e pool iters (pred iters) 1 o2 q2 with LRaise o3 x => (o3, Err x) | LDone o3 => (o3, final_result o3) end
                 end
  end.
Proof.
  intros c e pool iters o o' r FT I NP E. destruct iters as [|m]; [lia|]. unfold optimize in E. change (start_pbest c (start_memory c o)) with (started c o) in E.
  assert (E' : match opt_loop c e pool (S m) (S m) 0 (started c o) [] with LRaise o3 x => (o3, Err x) | LDone o3 => (o3, final_result o3) end = (o', r)).
  { destruct pool as [[|p]|]; [congruence|exact E|exact E]. }
  clear E. rename E' into E. cbn [opt_loop] in E. unfold iteration in E. cbn [pred].
  pose proof (evaluate_cases c e pool 0 (started c o) []) as EC.
  destruct (evaluate_swarm c e pool 0 (started c o) []) as [o1 q|o1|o1 x] eqn:EV.
  - pose proof (update_cases c e (S m) 0 o1 q) as UC. destruct (update_swarm c e (S m) 0 o1 q) as [o2 q2|o2|o2 x].
    + symmetry. exact E.
    + contradiction.
    + split; congruence.
  - exfalso. unfold evaluate_swarm in EV. destruct (compute_objective_function _ _ _); [|discriminate].
    destruct (compute_pbest _) as [[pp pc]|]; [|discriminate]. destruct (compute_gbest _ _ _ _) as [t [[[bp bc] np]|]]; [|discriminate].
    destruct (c_ftol_iter c); [lia|]. cbn [Nat.leb andb] in EV. discriminate.
  - split; congruence.
Qed.
Lemma evaluate_next : forall c e pool i o q o1 q1, evaluate_swarm c e pool i o q = Next o1 q1 ->
  length (o_pos_history o1) = S (length (o_pos_history o)) /\ s_position (o_swarm o1) = s_position (o_swarm o).
Proof.
  intros c e pool i o q o1 q1 E. pose proof (evaluate_cases c e pool i o q) as EC. rewrite E in EC.
  destruct EC as (cost & pp & pc & t & bp & bc & np & (E1 & E2 & E3 & ->) & _). cbn. rewrite app_length. cbn. split; [lia|reflexivity].
Qed.

(** A call whose first update fails whatever it gets. *)
Definition keeps (o o' : ostate) (r : res (f64 * frow)) : Prop :=
  (exists x, r = Err x) /\ length (o_pos_history o') <= S (length (o_pos_history o)) /\ s_position (o_swarm o') = s_position (o_swarm o).
Lemma first_fails : forall c e pool iters o o' r (Q : exn -> Prop), 0 < c_ftol_iter c -> 0 < iters -> optimize c e pool iters o = (o', r) ->
  (forall o1 q, evaluate_swarm c e pool 0 (started c o) [] = Next o1 q -> exists o2 x, update_swarm c e iters 0 o1 q = Raise o2 x /\ Q x) ->
  keeps o o' r /\ forall o1 q, pool <> Some 0 -> evaluate_swarm c e pool 0 (started c o) [] = Next o1 q ->
    length (o_pos_history o') = S (length (o_pos_history o)) /\ exists x, r = Err x /\ Q x.
Proof.
  intros c e pool iters o o' r Q FT I E U. destruct (started_facts c o) as (_ & _ & _ & _ & E5 & E6 & E7 & _).
  assert (P0 : s_position (o_swarm (started c o)) = s_position (o_swarm o)) by (rewrite E7; reflexivity).
  assert (D : pool = Some 0 \/ pool <> Some 0) by (destruct pool as [[|p]|]; [left; reflexivity|right; congruence|right; congruence]).
  destruct D as [D|NP].
  - split; [|congruence]. subst pool. unfold optimize in E. injection E as <- <-. unfold keeps, start_memory. destruct (c_kind c); cbn; eauto.
  - pose proof (first_iteration _ _ _ _ _ _ _ FT I NP E) as FI. pose proof (evaluate_cases c e pool 0 (started c o) []) as EC.
    destruct (evaluate_swarm c e pool 0 (started c o) []) as [o1 q|o1|o1 x] eqn:EV.
    + destruct (U o1 q eq_refl) as (o2 & x & UE & QX). pose proof (update_cases c e iters 0 o1 q) as UC. rewrite UE in FI, UC.
      destruct FI as [-> ->]. destruct UC as (CE & PP). destruct (evaluate_next _ _ _ _ _ _ _ _ EV) as [L1 L2].
      assert (LL : length (o_pos_history o2) = S (length (o_pos_history o))) by (rewrite (ce_ph _ _ CE), L1, E5; reflexivity).
      split; [split; [eauto|split; [lia|congruence]]|]. intros o1' q' _ Z. split; [exact LL|eauto].
    + contradiction.
    + destruct FI as [-> ->]. split; [|intros ? ? _ Z; discriminate]. split; [eauto|].
      assert (HH : o_pos_history o1 = o_pos_history (started c o) /\ s_position (o_swarm o1) = s_position (o_swarm (started c o))).
      { clear -EC. inversion EC; subst; auto. }
      destruct HH as [H1 H2]. rewrite H1, H2, E5. split; [lia|exact P0].
Qed.

(** A call with another configuration that agrees on everything but its handlers. *)
Definition same_eval (c c' : config) : Prop :=
  (forall e pool o q, evaluate_swarm c' e pool 0 o q = evaluate_swarm c e pool 0 o q) /\ (forall o, started c' o = started c o) /\ c_ftol_iter c' = c_ftol_iter c.
Lemma fails_like : forall c (R : config -> Prop) e pool iters o o' r y, (forall c', R c' -> same_eval c c') ->
  0 < c_ftol_iter c -> 0 < iters -> optimize c e pool iters o = (o', r) ->
  (forall o1 q, exists o2 x, update_swarm c e iters 0 o1 q = Raise o2 x /\
     forall c' o3 q3, R c' -> update_swarm c' e iters 0 o1 q = Next o3 q3 -> x = y) ->
  keeps o o' r /\ forall c' o'' v, R c' -> optimize c' e pool iters o = (o'', Ok v) -> r = Err y /\ length (o_pos_history o') = S (length (o_pos_history o)).
Proof.
  intros c R e pool iters o o' r y RS FT I E U.
  destruct (first_fails c e pool iters o o' r
    (fun x => forall o1 q, evaluate_swarm c e pool 0 (started c o) [] = Next o1 q ->
       forall c' o3 q3, R c' -> update_swarm c' e iters 0 o1 q = Next o3 q3 -> x = y) FT I E) as [K F].
  { intros o1 q EV. destruct (U o1 q) as (o2 & x & UE & H). exists o2, x. split; [exact UE|]. intros o1' q' EV'. rewrite EV in EV'. injection EV' as <- <-. exact H. }
  split; [exact K|]. intros c' o'' v RC E'. pose proof (RS _ RC) as (S1 & S2 & S3).
  assert (NP : pool <> Some 0). { intros ->. unfold optimize in E'. discriminate. }
  assert (FT' : 0 < c_ftol_iter c') by lia. pose proof (first_iteration _ _ _ _ _ _ _ FT' I NP E') as FI.
  rewrite S1, S2 in FI. destruct (evaluate_swarm c e pool 0 (started c o) []) as [o1 q|o1|o1 x] eqn:EV.
  - destruct (update_swarm c' e iters 0 o1 q) as [o2 q2|o2|o2 x] eqn:UE; [|contradiction|destruct FI; discriminate].
    destruct (F o1 q NP eq_refl) as (L & x & -> & Q). split; [|exact L]. rewrite (Q o1 q eq_refl c' o2 q2 RC UE). reflexivity.
  - contradiction.
  - destruct FI; discriminate.
Qed.
Lemma same_eval_bh : forall c st, same_eval c (with_bh c st). Proof. intros c st. repeat split. Qed.
Lemma same_eval_vh : forall c st, same_eval c (with_vh c st). Proof. intros c st. repeat split. Qed.

(** An unknown boundary strategy. *)
Lemma unknown_bh_run : forall c e pool iters o o' r, c_kind c <> Binary -> c_bounds c <> None -> 0 < c_ftol_iter c -> 0 < iters ->
  ~ In (c_bh c) ["nearest"; "reflective"; "shrink"; "random"; "intermediate"; "periodic"] -> optimize c e pool iters o = (o', r) ->
  (exists x, r = Err x) /\ length (o_pos_history o') <= S (length (o_pos_history o)) /\ s_position (o_swarm o') = s_position (o_swarm o) /\
  (forall st o'' v, optimize (with_bh c st) e pool iters o = (o'', Ok v) ->
     r = Err KeyError /\ length (o_pos_history o') = S (length (o_pos_history o))).
Proof.
  intros c e pool iters o o' r KB CB FT I U E.
  destruct (fails_like c (fun c' => exists st, c' = with_bh c st) e pool iters o o' r KeyError) as [(K1 & K2 & K3) F]; auto.
  - intros c' (st & ->). apply same_eval_bh.
  - intros o1 q. unfold update_swarm at 1. destruct (match c_kind c with Binary => Ok _ | _ => oh_call _ _ _ _ end) as [opts|x] eqn:OH.
    2:{ do 2 eexists. split; [reflexivity|]. intros c' o3 q3 (st & ->). unfold update_swarm. cbn [c_kind c_oh c_options with_bh]. rewrite OH. discriminate. }
    destruct (compute_velocity _ _ _ _ _ _) as [[v vm]|x] eqn:CV.
    2:{ do 2 eexists. split; [reflexivity|]. intros c' o3 q3 (st & ->). unfold update_swarm. cbn [c_kind c_oh c_options c_bounds c_vh c_clamp with_bh]. rewrite OH, CV. discriminate. }
    assert (H : exists o2 x, match compute_position (e_bh e 0) (c_bh c) (o_bmem (with_vmem (with_swarm (with_swarm o1 (set_options (o_swarm o1) opts)) (set_velocity (set_options (o_swarm o1) opts) v)) vm)) (set_velocity (set_options (o_swarm o1) opts) v) (c_bounds c) with
       | Err x => Raise (with_vmem (with_swarm (with_swarm o1 (set_options (o_swarm o1) opts)) (set_velocity (set_options (o_swarm o1) opts) v)) vm) x
       | Ok (p, bmem) => Next (with_bmem (with_swarm (with_vmem (with_swarm (with_swarm o1 (set_options (o_swarm o1) opts)) (set_velocity (set_options (o_swarm o1) opts) v)) vm) (set_position (set_velocity (set_options (o_swarm o1) opts) v) p)) bmem) q
       end = Raise o2 x /\
       (x = KeyError \/ same_shape (s_position (o_swarm o1)) v = false)).
    { unfold compute_position. cbn [s_position s_velocity set_velocity set_options]. destruct (same_shape (s_position (o_swarm o1)) v); cbn [negb].
      - destruct (c_bounds c) as [b|]; [|congruence]. rewrite bh_unknown by exact U. do 2 eexists. split; [reflexivity|left; reflexivity].
      - do 2 eexists. split; [reflexivity|right; reflexivity]. }
    destruct H as (o2 & x & H & Q). exists o2, x. split; [destruct (c_kind c); try congruence; exact H|].
    intros c' o3 q3 (st & ->) UE. destruct Q as [Q|Q]; [exact Q|]. exfalso. unfold update_swarm in UE. cbn [c_kind c_oh c_options c_bounds c_vh c_clamp c_bh with_bh] in UE.
    rewrite OH, CV in UE. unfold compute_position in UE. cbn [s_position s_velocity set_velocity set_options] in UE. rewrite Q in UE. cbn [negb] in UE.
    destruct (c_kind c); try congruence.
  - split; [exact K1|]. split; [exact K2|]. split; [exact K3|]. intros st o'' v E'. exact (F (with_bh c st) o'' v (ex_intro _ st eq_refl) E').
Qed.

(** Velocity strategies: unknown, or in need of bounds that are not there. *)
Lemma bad_vh_run : forall c e pool iters o o' r y, 0 < c_ftol_iter c -> 0 < iters -> optimize c e pool iters o = (o', r) ->
  (forall mem k vel, vk_bounds k = Some (match c_kind c with Binary => None | _ => c_bounds c end) -> vk_position k <> None ->
     vh_call (N := F64num) (c_vh c) (c_clamp c) mem k vel = Err y) ->
  (exists x, r = Err x) /\ length (o_pos_history o') <= S (length (o_pos_history o)) /\ s_position (o_swarm o') = s_position (o_swarm o) /\
  (forall st o'' v, optimize (with_vh c st) e pool iters o = (o'', Ok v) ->
     r = Err y /\ length (o_pos_history o') = S (length (o_pos_history o))).
Proof.
  intros c e pool iters o o' r y FT I E U.
  destruct (fails_like c (fun c' => exists st, c' = with_vh c st) e pool iters o o' r y) as [(K1 & K2 & K3) F]; auto.
  - intros c' (st & ->). apply same_eval_vh.
  - intros o1 q. unfold update_swarm at 1. destruct (match c_kind c with Binary => Ok _ | _ => oh_call _ _ _ _ end) as [opts|x] eqn:OH.
    2:{ do 2 eexists. split; [reflexivity|]. intros c' o3 q3 (st & ->). unfold update_swarm. cbn [c_kind c_oh c_options with_vh]. rewrite OH. discriminate. }
    match goal with |- context [compute_velocity ?a ?b ?m ?s ?cl ?bd] => 
      assert (H : exists x, compute_velocity a b m s cl bd = Err x /\ (x = y \/ forall st vv, compute_velocity a st m s cl bd <> Ok vv)) end.
    { unfold compute_velocity. destruct (num_of _ "c1"); cbn [bind]; [|eexists; split; [reflexivity|right; discriminate]].
      destruct (num_of _ "c2"); cbn [bind]; [|eexists; split; [reflexivity|right; discriminate]].
      destruct (num_of _ "w"); cbn [bind]; [|eexists; split; [reflexivity|right; discriminate]].
      destruct (best_rows _ _ _); cbn [bind]; [|eexists; split; [reflexivity|right; discriminate]].
      destruct (negb _); [eexists; split; [reflexivity|right; discriminate]|].
      exists y. split; [|left; reflexivity]. apply U; [reflexivity|discriminate]. }
    destruct H as (x & H & Q). rewrite H. do 2 eexists. split; [reflexivity|].
    intros c' o3 q3 (st & ->) UE. destruct Q as [Q|Q]; [exact Q|]. exfalso. unfold update_swarm in UE. cbn [c_kind c_oh c_options c_bounds c_vh c_clamp with_vh] in UE.
    rewrite OH in UE. destruct (compute_velocity _ st _ _ _ _) as [vv|] eqn:CV in UE; [|discriminate]. exact (Q st vv CV).
  - split; [exact K1|]. split; [exact K2|]. split; [exact K3|]. intros st o'' v E'. exact (F (with_vh c st) o'' v (ex_intro _ st eq_refl) E').
Qed.
Lemma unknown_vh_run : forall c e pool iters o o' r, 0 < c_ftol_iter c -> 0 < iters ->
  ~ In (c_vh c) ["unmodified"; "adjust"; "invert"; "zero"] -> optimize c e pool iters o = (o', r) ->
  (exists x, r = Err x) /\ length (o_pos_history o') <= S (length (o_pos_history o)) /\ s_position (o_swarm o') = s_position (o_swarm o) /\
  (forall st o'' v, optimize (with_vh c st) e pool iters o = (o'', Ok v) ->
     r = Err KeyError /\ length (o_pos_history o') = S (length (o_pos_history o))).
Proof. intros. eapply bad_vh_run; eauto. intros. apply vh_unknown. auto. Qed.
Lemma unbounded_vh_run : forall c e pool iters o o' r, 0 < c_ftol_iter c -> 0 < iters ->
  c_vh c = "invert" \/ c_vh c = "zero" -> c_kind c = Binary \/ c_bounds c = None -> optimize c e pool iters o = (o', r) ->
  (exists x, r = Err x) /\ length (o_pos_history o') <= S (length (o_pos_history o)) /\ s_position (o_swarm o') = s_position (o_swarm o) /\
  (forall st o'' v, optimize (with_vh c st) e pool iters o = (o'', Ok v) ->
     r = Err TypeError /\ length (o_pos_history o') = S (length (o_pos_history o))).
Proof.
  intros c e pool iters o o' r FT I V B E. eapply bad_vh_run; eauto. intros mem [p b z] vel VB VP. cbn in VB, VP.
  assert (Q : b = Some None) by (rewrite VB; destruct B as [-> | ->]; [reflexivity|destruct (c_kind c); reflexivity]). rewrite Q.
  destruct p as [p|]; [|congruence]. destruct V as [-> | ->]; reflexivity.
Qed.
(** Construction does not look at the strategies. *)
Lemma construct_ignores : forall c bh vh top dr, construct (with_vh (with_bh c bh) vh) top dr = construct c top dr.
Proof. reflexivity. Qed.
