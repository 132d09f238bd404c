(** Runs whose objective writes into the options dictionary. *)
From Coq Require Import String ZArith List Arith Bool Lia.
From Verif Require Import Prelude F64 Num Np ListFacts Handlers Swarms Operators Generators Topology Optimizers LiveOptions Spec SpecDyn SpecLive RunFacts.
Import ListNotations.
Local Open Scope string_scope.
Local Open Scope list_scope.
Local Open Scope nat_scope.

(** *** [swarm.options] is read by the velocity update only *)
Definition but (o : ostate) (u : options F64num) : ostate := with_swarm o (set_options (o_swarm o) u).
Definition smap (f : ostate -> ostate) (r : step) : step :=
  match r with Next o q => Next (f o) q | Break o => Break (f o) | Raise o x => Raise (f o) x end.
Lemma but_self : forall o, but o (s_options (o_swarm o)) = o.
Proof. intros o. destruct o as [s ? ? ? ? ? ? ? ?]. destruct s. reflexivity. Qed.
Lemma but_but : forall o u v, but (but o u) v = but o v.
Proof. reflexivity. Qed.
Lemma but_but_options : forall o u v, but_options (but o u) (but o v).
Proof. intros. exists v. reflexivity. Qed.
Lemma but_refl : forall o, but_options o o.
Proof. intros o. exists (s_options (o_swarm o)). symmetry. exact (but_self o). Qed.
Lemma but_trans : forall o o1 o2, but_options o o1 -> but_options o o2 -> but_options o1 o2.
Proof. intros o o1 o2 [u ->] [v ->]. exists v. reflexivity. Qed.
Lemma gbest_but : forall dr a t s u, compute_gbest dr a t (set_options s u) = compute_gbest dr a t s.
Proof. intros. unfold compute_gbest. reflexivity. Qed.
Lemma eval_but : forall c e pool i o q u, evaluate_swarm c e pool i (but o u) q = smap (fun o => but o u) (evaluate_swarm c e pool i o q).
Proof.
  intros. unfold evaluate_swarm. change (o_swarm (but o u)) with (set_options (o_swarm o) u).
  change (s_position (set_options (o_swarm o) u)) with (s_position (o_swarm o)).
  destruct (compute_objective_function pool (e_obj e i) (s_position (o_swarm o))) as [cost|x]; [|reflexivity].
  change (compute_pbest (set_current_cost (set_options (o_swarm o) u) cost)) with (compute_pbest (set_current_cost (o_swarm o) cost)).
  destruct (compute_pbest (set_current_cost (o_swarm o) cost)) as [[pp pc]|x]; [|reflexivity].
  change (set_pbest (set_current_cost (set_options (o_swarm o) u) cost) pp pc) with (set_options (set_pbest (set_current_cost (o_swarm o) cost) pp pc) u). rewrite gbest_but.
  change (o_top (but o u)) with (o_top o).
  destruct (compute_gbest (e_top e i) (gbest_args c) (o_top o) (set_pbest (set_current_cost (o_swarm o) cost) pp pc)) as [t [[[bp bc] np]|x]]; [|reflexivity].
  cbn [s_best_cost set_pbest set_current_cost set_options].
  destruct (Nat.leb (c_ftol_iter c) i && _); reflexivity.
Qed.
Lemma eval_config : forall c c' e pool i o q, gbest_args c' = gbest_args c -> c_ftol c' = c_ftol c -> c_ftol_iter c' = c_ftol_iter c -> evaluate_swarm c' e pool i o q = evaluate_swarm c e pool i o q.
Proof. intros c c' e pool i o q G F I. unfold evaluate_swarm. rewrite G, F, I. reflexivity. Qed.
Lemma asked_ftol : forall c u, c_ftol (asked c u) = c_ftol c /\ c_ftol_iter (asked c u) = c_ftol_iter c.
Proof. intros c u. unfold asked. destruct (c_kind c); split; reflexivity. Qed.
Definition ran (c : config) (e : env) (iters i : nat) (o : ostate) : res (options F64num) :=
  match c_kind c with
  | Binary => Ok (s_options (o_swarm o))
  | _ => oh_call (e_oh e i) (c_oh c) (c_options c) (mkOk (Some (Z.of_nat i)) (Some (Z.of_nat iters)) None None None None)
  end.
Lemma velocity_same : forall dr vh vmem s cl b u u', same_at coefficients u u' -> compute_velocity dr vh vmem (set_options s u') cl b = compute_velocity dr vh vmem (set_options s u) cl b.
Proof.
  intros dr vh vmem s cl b u u' H. unfold compute_velocity, num_of. cbn [s_options set_options]. rewrite (H "c1"), (H "c2"), (H "w") by (cbn; tauto). reflexivity.
Qed.
(** Ends of two steps that agree but for [swarm.options]. *)
Definition pair_step (r r' : step) : Prop :=
  match r, r' with
  | Next o q, Next o' q' => but_options o o' /\ q' = q
  | Break o, Break o' => but_options o o'
  | Raise o x, Raise o' x' => but_options o o' /\ x' = x
  | _, _ => False
  end.
Lemma eval_pair : forall c c' e pool i o o' q, gbest_args c' = gbest_args c -> c_ftol c' = c_ftol c -> c_ftol_iter c' = c_ftol_iter c -> but_options o o' ->
  pair_step (evaluate_swarm c e pool i o q) (evaluate_swarm c' e pool i o' q).
Proof.
  intros c c' e pool i o o' q G F I [u ->]. rewrite (eval_config c c') by assumption. change (with_swarm o (set_options (o_swarm o) u)) with (but o u). rewrite eval_but.
  destruct (evaluate_swarm c e pool i o q) as [o1 q1|o1|o1 x]; cbn [smap pair_step]; [split; [exists u; reflexivity|reflexivity]|exists u; reflexivity|split; [exists u; reflexivity|reflexivity]].
Qed.
Lemma update_pair : forall c c' e iters i o o' q, same_settings c c' -> but_options o o' ->
  match ran c e iters i o, ran c' e iters i o' with
  | Ok w, Ok w' => same_at coefficients w w'
  | Err x, Err x' => x' = x
  | _, _ => False
  end -> pair_step (update_swarm c e iters i o q) (update_swarm c' e iters i o' q).
Proof.
  intros c c' e iters i o o' q (uc & sc & ->) [v ->]. unfold ran. cbn [c_kind c_oh c_options]. unfold update_swarm. cbn [c_kind c_oh c_options c_bounds c_clamp c_vh c_bh].
  set (r := match c_kind c with Binary => _ | _ => _ end).
  set (r' := match c_kind c with Binary => Ok (s_options (o_swarm (with_swarm o (set_options (o_swarm o) v)))) | _ => _ end).
  destruct r as [w|x]; destruct r' as [w'|x']; intros H; try contradiction; [|subst; split; [exists v; reflexivity|reflexivity]].
  cbn [o_swarm with_swarm o_vmem]. change (set_options (set_options (o_swarm o) v) w') with (set_options (o_swarm o) w'). rewrite (velocity_same _ _ _ _ _ _ w w' H).
  destruct (compute_velocity _ _ _ _ _ _) as [[vel vm]|x]; [|split; [exists w'; reflexivity|reflexivity]].
  cbn [s_velocity set_velocity].
  assert (P : forall b, compute_position (e_bh e i) (c_bh c) (o_bmem o) (set_velocity (set_options (o_swarm o) w') vel) b = compute_position (e_bh e i) (c_bh c) (o_bmem o) (set_velocity (set_options (o_swarm o) w) vel) b) by reflexivity.
  assert (B : forall x, o_bmem (with_vmem (with_swarm (with_swarm o (set_options (o_swarm o) x)) (set_velocity (set_options (o_swarm o) x) vel)) vm) = o_bmem o) by reflexivity.
  change (o_bmem (with_vmem (with_swarm (with_swarm (with_swarm o (set_options (o_swarm o) v)) (set_options (o_swarm o) w')) (set_velocity (set_options (o_swarm o) w') vel)) vm)) with (o_bmem o). rewrite B, P. clear.
  destruct (c_kind c).
  all: try (destruct (compute_position _ _ _ _ _) as [[p bm]|x]; cbn [pair_step]; (split; [exists w'; reflexivity|reflexivity])).
  destruct (binary_position _ _ _) as [p|x]; cbn [pair_step]; (split; [exists w'; reflexivity|reflexivity]).
Qed.

(** *** [coherent] is kept *)
Lemma eval_options : forall c e pool i o q, match evaluate_swarm c e pool i o q with Next o' _ | Break o' | Raise o' _ => s_options (o_swarm o') = s_options (o_swarm o) end.
Proof.
  intros. unfold evaluate_swarm. destruct (compute_objective_function _ _ _) as [cost|x]; [|reflexivity]. destruct (compute_pbest _) as [[pp pc]|x]; [|reflexivity].
  destruct (compute_gbest _ _ _ _) as [t [[[bp bc] np]|x]]; [|reflexivity]. destruct (Nat.leb _ _ && _); reflexivity.
Qed.
Lemma update_options : forall c e iters i o q, match update_swarm c e iters i o q with Next o' _ | Break o' | Raise o' _ => s_options (o_swarm o') = match ran c e iters i o with Ok w => w | Err _ => s_options (o_swarm o) end end.
Proof.
  intros. unfold update_swarm, ran. set (r := match c_kind c with Binary => _ | _ => _ end). destruct r as [w|x]; [|reflexivity].
  destruct (compute_velocity _ _ _ _ _ _) as [[v vm]|x]; [|reflexivity]. destruct (c_kind c).
  all: try (destruct (compute_position _ _ _ _ _) as [[p bm]|x]; reflexivity).
  destruct (binary_position _ _ _) as [p|x]; reflexivity.
Qed.
Definition l_end (r : lstep) : lstate := match r with LNext s _ | LBreak s | LStop s _ => s end.
Definition told (wr : writer) (pool : option nat) (i : nat) (s : lstate) : options F64num :=
  match pool with None => wr i (s_position (o_swarm (l_o s))) (l_u s) | Some _ => l_u s end.
Definition synced (s : lstate) (u : options F64num) : ostate := if l_same s then with_swarm (l_o s) (set_options (o_swarm (l_o s)) u) else l_o s.
Lemma coherent_step : forall c e wr pool iters i s q, coherent c s -> coherent c (l_end (live_iteration c e wr pool iters i s q)) /\ l_u (l_end (live_iteration c e wr pool iters i s q)) = told wr pool i s.
Proof.
  intros c e wr pool iters i s q [H1 H2]. unfold live_iteration. fold (told wr pool i s). set (u := told wr pool i s). fold (synced s u).
  assert (A : l_same s = true -> s_options (o_swarm (synced s u)) = u) by (intros L; unfold synced; rewrite L; reflexivity).
  pose proof (eval_options (asked c u) e pool i (synced s u) q) as E. destruct (evaluate_swarm (asked c u) e pool i (synced s u) q) as [o1 q1|o1|o1 x]; cbn [l_end].
  2,3: split; [|reflexivity]; split; [cbn [l_same l_o l_u]; intros L; rewrite E; exact (A L)|exact H2].
  assert (B : forall o2, s_options (o_swarm o2) = match ran (with_options c u) e iters i o1 with Ok w => w | Err _ => s_options (o_swarm o1) end -> coherent c (mkL o2 u (same_after c e iters i u (l_same s)))).
  { intros o2 E2. unfold coherent. cbn [l_same l_o l_u]. rewrite E2. unfold same_after, ran. cbn [c_kind c_oh c_options with_options]. split.
    - destruct (c_kind c) eqn:K; try (destruct (c_oh c) eqn:O; [reflexivity|]; destruct (oh_call _ _ _ _); [discriminate|]); intros L; rewrite E; exact (A L).
    - intros K. rewrite K. exact (H2 K). }
  pose proof (update_options (with_options c u) e iters i o1 q1) as U. destruct (update_swarm (with_options c u) e iters i o1 q1) as [o2 q2|o2|o2 x]; (split; [exact (B o2 U)|reflexivity]).
Qed.
Lemma coherent_loop : forall c e wr pool iters m i s q, coherent c s -> coherent c (fst (live_loop c e wr pool iters m i s q)).
Proof.
  intros c e wr pool iters m. induction m as [|m IH]; intros i s q H; [exact H|]. cbn [live_loop]. destruct (coherent_step c e wr pool iters i s q H) as [K _].
  destruct (live_iteration c e wr pool iters i s q) as [s1 q1|s1|s1 x]; cbn [l_end] in K; [exact (IH _ _ _ K)|exact K|exact K].
Qed.
Lemma coherent_start : forall c s, coherent c s -> coherent c (mkL (started c (l_o s)) (l_u s) (l_same s)).
Proof. intros c s H. unfold coherent, started, start_memory, start_pbest in *. destruct (c_kind c); exact H. Qed.
Lemma live_optimize_coherent : forall c e wr pool iters s, coherent c s -> coherent c (fst (optimize_live c e wr pool iters s)).
Proof.
  intros c e wr pool iters s H. unfold optimize_live. pose proof (coherent_loop c e wr pool iters iters 0 _ [] (coherent_start c s H)) as L. unfold started in L.
  destruct pool as [[|n]|].
  - unfold coherent, start_memory in *. destruct (c_kind c); exact H.
  - destruct (live_loop _ _ _ _ _ _ _ _ _) as [s' [x|]]; exact L.
  - destruct (live_loop _ _ _ _ _ _ _ _ _) as [s' [x|]]; exact L.
Qed.

(** Without strategies [swarm.options] stays the dictionary itself. *)
Lemma alias_step : forall c e wr pool iters i s q, c_kind c = Binary \/ c_oh c = [] -> l_same s = true -> l_same (l_end (live_iteration c e wr pool iters i s q)) = true.
Proof.
  intros c e wr pool iters i s q K H. unfold live_iteration. set (u := match pool with None => _ | Some _ => _ end).
  assert (A : same_after c e iters i u (l_same s) = true) by (unfold same_after; destruct K as [K|K]; rewrite K; [exact H|destruct (c_kind c); [reflexivity|reflexivity|reflexivity|exact H]]).
  destruct (evaluate_swarm _ _ _ _ _ _) as [o1 q1|o1|o1 x]; [|exact H|exact H]. destruct (update_swarm _ _ _ _ _ _) as [o2 q2|o2|o2 x]; exact A.
Qed.
Lemma alias_loop : forall c e wr pool iters m i s q, c_kind c = Binary \/ c_oh c = [] -> l_same s = true -> l_same (fst (live_loop c e wr pool iters m i s q)) = true.
Proof.
  intros c e wr pool iters m. induction m as [|m IH]; intros i s q K H; [exact H|]. cbn [live_loop]. pose proof (alias_step c e wr pool iters i s q K H) as A.
  destruct (live_iteration c e wr pool iters i s q) as [s1 q1|s1|s1 x]; cbn [l_end] in A; [exact (IH _ _ _ K A)|exact A|exact A].
Qed.
Lemma live_alias : forall c e wr pool iters s, c_kind c = Binary \/ c_oh c = [] -> coherent c s -> l_same s = true ->
  l_same (fst (optimize_live c e wr pool iters s)) = true /\ s_options (o_swarm (l_o (fst (optimize_live c e wr pool iters s)))) = l_u (fst (optimize_live c e wr pool iters s)).
Proof.
  intros c e wr pool iters s K C H. assert (A : l_same (fst (optimize_live c e wr pool iters s)) = true).
  { unfold optimize_live. pose proof (alias_loop c e wr pool iters iters 0 (mkL (start_pbest c (start_memory c (l_o s))) (l_u s) (l_same s)) [] K H) as L.
    destruct pool as [[|n]|]; [exact H| |]; (destruct (live_loop _ _ _ _ _ _ _ _ _) as [s' [x|]]; exact L). }
  split; [exact A|]. exact (proj1 (live_optimize_coherent c e wr pool iters s C) A).
Qed.

(** *** Two runs in step *)
Lemma kind_same : forall c c', same_settings c c' -> c_kind c' = c_kind c.
Proof. intros c c' (u & s & ->). reflexivity. Qed.
Lemma ftol_same : forall c c', same_settings c c' -> c_ftol c' = c_ftol c /\ c_ftol_iter c' = c_ftol_iter c.
Proof. intros c c' (u & s & ->). split; reflexivity. Qed.
Lemma with_same : forall c c' u u', same_settings c c' -> same_settings (with_options c u) (with_options c' u').
Proof. intros c c' u u' (v & s & ->). exists u', s. reflexivity. Qed.
Section Pair.
Variables (c c' : config) (e : env) (wr wr' : writer) (pool : option nat) (iters : nat).
Hypothesis SET : same_settings c c'.
Variable J : options F64num -> options F64num -> Prop.
Definition heard (wr : writer) (i : nat) (x : fmatrix) (u : options F64num) : options F64num := match pool with None => wr i x u | Some _ => u end.
Hypothesis STEP : forall i x u u', i < iters -> J u u' -> J (heard wr i x u) (heard wr' i x u') /\
  gbest_args (asked c' (heard wr' i x u')) = gbest_args (asked c (heard wr i x u)) /\
  match
    match c_kind c with Binary => Ok (heard wr i x u) | _ => oh_call (e_oh e i) (c_oh c) (heard wr i x u) (mkOk (Some (Z.of_nat i)) (Some (Z.of_nat iters)) None None None None) end,
    match c_kind c with Binary => Ok (heard wr' i x u') | _ => oh_call (e_oh e i) (c_oh c') (heard wr' i x u') (mkOk (Some (Z.of_nat i)) (Some (Z.of_nat iters)) None None None None) end
  with
  | Ok w, Ok w' => same_at coefficients w w'
  | Err x, Err x' => x' = x
  | _, _ => False
  end.
Definition both (s s' : lstate) : Prop := but_options (l_o s) (l_o s') /\ J (l_u s) (l_u s') /\ coherent c s /\ coherent c' s'.
Definition pair_end (r r' : lstep) : Prop :=
  match r, r' with
  | LNext s q, LNext s' q' => both s s' /\ q' = q
  | LBreak s, LBreak s' => both s s'
  | LStop s x, LStop s' x' => both s s' /\ x' = x
  | _, _ => False
  end.
Lemma pair_iteration : forall i s s' q, i < iters -> both s s' -> pair_end (live_iteration c e wr pool iters i s q) (live_iteration c' e wr' pool iters i s' q).
Proof.
  intros i s s' q Hi (B & Ju & C1 & C2). pose proof (coherent_step c e wr pool iters i s q C1) as [D1 U1]. pose proof (coherent_step c' e wr' pool iters i s' q C2) as [D2 U2].
  unfold live_iteration in *. fold (told wr pool i s) in *. fold (told wr' pool i s') in *. set (u := told wr pool i s) in *. set (u' := told wr' pool i s') in *. fold (synced s u) in *. fold (synced s' u') in *.
  assert (X : s_position (o_swarm (l_o s')) = s_position (o_swarm (l_o s))) by (destruct B as [v ->]; reflexivity).
  destruct (STEP i (s_position (o_swarm (l_o s))) (l_u s) (l_u s') Hi Ju) as (J1 & G & R).
  assert (Eu : heard wr i (s_position (o_swarm (l_o s))) (l_u s) = u) by reflexivity.
  assert (Eu' : heard wr' i (s_position (o_swarm (l_o s))) (l_u s') = u') by (unfold u', told, heard; rewrite X; reflexivity).
  rewrite Eu, Eu' in J1, G, R.
  assert (S1 : but_options (synced s u) (synced s' u')).
  { destruct B as [v B]. unfold synced. rewrite B. destruct (l_same s), (l_same s'); [exists u'|exists v|exists u'|exists v]; reflexivity. }
  destruct (asked_ftol c u) as [F1 F2]. destruct (asked_ftol c' u') as [F1' F2']. destruct (ftol_same _ _ SET) as [F3 F4].
  pose proof (eval_pair (asked c u) (asked c' u') e pool i _ _ q G (eq_trans F1' (eq_trans F3 (eq_sym F1))) (eq_trans F2' (eq_trans F4 (eq_sym F2))) S1) as E.
  pose proof (eval_options (asked c u) e pool i (synced s u) q) as P. pose proof (eval_options (asked c' u') e pool i (synced s' u') q) as P'.
  destruct (evaluate_swarm (asked c u) e pool i (synced s u) q) as [o1 q1|o1|o1 x]; destruct (evaluate_swarm (asked c' u') e pool i (synced s' u') q) as [o1' q1'|o1'|o1' x']; cbn [pair_step] in E; try contradiction; cbn [l_end] in D1, D2, U1, U2; cbn [pair_end].
  2: exact (conj E (conj J1 (conj D1 D2))). 2: destruct E as [E ->]; exact (conj (conj E (conj J1 (conj D1 D2))) eq_refl).
  destruct E as [E ->].
  pose proof (with_same c c' u u' SET) as SW.
  assert (RR : match ran (with_options c u) e iters i o1, ran (with_options c' u') e iters i o1' with Ok w, Ok w' => same_at coefficients w w' | Err x, Err x' => x' = x | _, _ => False end).
  { unfold ran. cbn [c_kind c_oh c_options with_options]. rewrite (kind_same _ _ SET). destruct (c_kind c) eqn:K; try exact R.
    rewrite P, P'. unfold synced. rewrite (proj2 C1 K). rewrite (proj2 C2) by (rewrite (kind_same _ _ SET); exact K). exact R. }
  pose proof (update_pair _ _ e iters i o1 o1' q1 SW E RR) as UP.
  destruct (update_swarm (with_options c u) e iters i o1 q1) as [o2 q2|o2|o2 x]; destruct (update_swarm (with_options c' u') e iters i o1' q1) as [o2' q2'|o2'|o2' x']; cbn [pair_step] in UP; try contradiction; cbn [l_end] in D1, D2; cbn [pair_end].
  - destruct UP as [UP ->]. exact (conj (conj UP (conj J1 (conj D1 D2))) eq_refl).
  - exact (conj UP (conj J1 (conj D1 D2))).
  - destruct UP as [UP ->]. exact (conj (conj UP (conj J1 (conj D1 D2))) eq_refl).
Qed.
Lemma pair_loop : forall m i s s' q, i + m <= iters -> both s s' ->
  both (fst (live_loop c e wr pool iters m i s q)) (fst (live_loop c' e wr' pool iters m i s' q)) /\ snd (live_loop c' e wr' pool iters m i s' q) = snd (live_loop c e wr pool iters m i s q).
Proof.
  induction m as [|m IH]; intros i s s' q Hm B; [split; [exact B|reflexivity]|]. cbn [live_loop]. assert (Hi : i < iters) by lia. pose proof (pair_iteration i s s' q Hi B) as P.
  destruct (live_iteration c e wr pool iters i s q) as [s1 q1|s1|s1 x]; destruct (live_iteration c' e wr' pool iters i s' q) as [s1' q1'|s1'|s1' x']; cbn [pair_end] in P; try contradiction.
  - destruct P as [P ->]. apply IH; [lia|exact P].
  - split; [exact P|reflexivity].
  - destruct P as [P ->]. split; [exact P|reflexivity].
Qed.
Lemma start_pair : forall s s', both s s' -> both (mkL (started c (l_o s)) (l_u s) (l_same s)) (mkL (started c' (l_o s')) (l_u s') (l_same s')).
Proof.
  intros s s' (B & Ju & C1 & C2). split; [|split; [exact Ju|split; [exact (coherent_start _ _ C1)|exact (coherent_start _ _ C2)]]].
  cbn [l_o]. destruct B as [v ->]. destruct SET as (? & ? & ->). exists v. unfold started, start_memory, start_pbest. cbn [c_kind c_n]. destruct (c_kind c); reflexivity.
Qed.
Lemma final_but : forall o o', but_options o o' -> final_result o' = final_result o.
Proof. intros o o' [v ->]. reflexivity. Qed.
Lemma pair_optimize : forall s s', both s s' ->
  but_options (l_o (fst (optimize_live c e wr pool iters s))) (l_o (fst (optimize_live c' e wr' pool iters s'))) /\ snd (optimize_live c' e wr' pool iters s') = snd (optimize_live c e wr pool iters s).
Proof.
  intros s s' B. pose proof (pair_loop iters 0 _ _ [] (le_n _) (start_pair s s' B)) as [L E]. unfold optimize_live. unfold started in L, E. destruct pool as [[|n]|].
  { split; [|reflexivity]. cbn [fst l_o]. destruct B as ([v ->] & _). destruct SET as (? & ? & ->). exists v. unfold start_memory. cbn [c_kind]. destruct (c_kind c); reflexivity. }
  all: destruct (live_loop c e wr _ _ _ _ _ _) as [s1 [x|]]; destruct (live_loop c' e wr' _ _ _ _ _ _) as [s1' [x'|]]; cbn [fst snd] in *; try discriminate E;
    [injection E as ->; split; [exact (proj1 L)|reflexivity]|split; [exact (proj1 L)|exact (final_but _ _ (proj1 L))]].
Qed.
End Pair.

(** *** A quiet objective *)
Lemma quiet_told : forall wr pool i s, quiet wr pool -> told wr pool i s = l_u s.
Proof. intros wr pool i s [H|H]; unfold told; [destruct pool; [reflexivity|congruence]|destruct pool; [reflexivity|apply H]]. Qed.
Lemma with_own : forall c, with_options c (c_options c) = c.
Proof. intros c. destruct c. reflexivity. Qed.
Definition plain_step (r : lstep) : step := match r with LNext s q => Next (l_o s) q | LBreak s => Break (l_o s) | LStop s x => Raise (l_o s) x end.
Lemma quiet_iteration : forall c e wr pool iters i s q, quiet wr pool -> l_u s = c_options c -> coherent c s ->
  plain_step (live_iteration c e wr pool iters i s q) = iteration c e pool iters i (l_o s) q.
Proof.
  intros c e wr pool iters i s q Q U [H _]. unfold live_iteration, iteration. fold (told wr pool i s). rewrite (quiet_told wr pool i s Q). fold (synced s (l_u s)).
  assert (S1 : synced s (l_u s) = l_o s) by (unfold synced; destruct (l_same s); [rewrite <- (H eq_refl); exact (but_self _)|reflexivity]). rewrite S1, U, with_own.
  assert (A : asked c (c_options c) = c) by (unfold asked; rewrite with_own; destruct (c_kind c); reflexivity). rewrite A.
  destruct (evaluate_swarm c e pool i (l_o s) q) as [o1 q1|o1|o1 x]; try reflexivity. destruct (update_swarm c e iters i o1 q1) as [o2 q2|o2|o2 x]; reflexivity.
Qed.
Lemma quiet_loop : forall c e wr pool iters, quiet wr pool -> forall m i s q, l_u s = c_options c -> coherent c s ->
  l_u (fst (live_loop c e wr pool iters m i s q)) = c_options c /\
  opt_loop c e pool iters m i (l_o s) q = match live_loop c e wr pool iters m i s q with (s', None) => LDone (l_o s') | (s', Some x) => LRaise (l_o s') x end.
Proof.
  intros c e wr pool iters Q. induction m as [|m IH]; intros i s q U H; [split; [exact U|reflexivity]|]. cbn [live_loop opt_loop]. rewrite <- (quiet_iteration c e wr pool iters i s q Q U H).
  destruct (coherent_step c e wr pool iters i s q H) as [K V]. rewrite (quiet_told wr pool i s Q), U in V.
  destruct (live_iteration c e wr pool iters i s q) as [s1 q1|s1|s1 x]; cbn [l_end plain_step] in *; [exact (IH _ _ _ V K)|split; [exact V|reflexivity]|split; [exact V|reflexivity]].
Qed.
Lemma live_quiet : forall c e wr pool iters s, quiet wr pool -> l_u s = c_options c -> coherent c s ->
  l_u (fst (optimize_live c e wr pool iters s)) = l_u s /\ l_o (fst (optimize_live c e wr pool iters s)) = fst (optimize c e pool iters (l_o s)) /\
  snd (optimize_live c e wr pool iters s) = snd (optimize c e pool iters (l_o s)).
Proof.
  intros c e wr pool iters s Q U H. destruct (quiet_loop c e wr pool iters Q iters 0 (mkL (started c (l_o s)) (l_u s) (l_same s)) [] U (coherent_start c s H)) as [L E]. cbn [l_o] in E. unfold started in L, E. unfold optimize_live, optimize.
  destruct pool as [[|n]|]; [repeat split; reflexivity| |]; rewrite E; destruct (live_loop _ _ _ _ _ _ _ _ _) as [s' [x|]]; cbn [fst snd] in *; rewrite U; (split; [exact L|split; reflexivity]).
Qed.
Definition silent : writer := fun _ _ u => u.
Lemma silent_quiet : forall pool, quiet silent pool.
Proof. intros. right. reflexivity. Qed.
(** [optimize], seen as a run with a dictionary. *)
Lemma as_live : forall c e pool iters o, s_options (o_swarm o) = c_options c ->
  let s := mkL o (c_options c) true in coherent c s /\ l_o (fst (optimize_live c e silent pool iters s)) = fst (optimize c e pool iters o) /\ snd (optimize_live c e silent pool iters s) = snd (optimize c e pool iters o).
Proof.
  intros c e pool iters o H s. assert (C : coherent c s) by (split; [intros _; exact H|reflexivity]). split; [exact C|]. exact (proj2 (live_quiet c e silent pool iters s (silent_quiet pool) eq_refl C)).
Qed.

(** *** Only the objective writes into the dictionary *)
Lemma eval_history : forall c e pool i o q, match evaluate_swarm c e pool i o q with Next o' _ | Break o' => o_pos_history o' = o_pos_history o ++ [s_position (o_swarm o)] | Raise _ _ => True end.
Proof.
  intros. unfold evaluate_swarm. destruct (compute_objective_function _ _ _) as [cost|x]; [|exact Logic.I]. destruct (compute_pbest _) as [[pp pc]|x]; [|exact Logic.I].
  destruct (compute_gbest _ _ _ _) as [t [[[bp bc] np]|x]]; [|exact Logic.I]. destruct (Nat.leb _ _ && _); reflexivity.
Qed.
Lemma update_history : forall c e iters i o q, match update_swarm c e iters i o q with Next o' _ | Break o' | Raise o' _ => o_pos_history o' = o_pos_history o end.
Proof.
  intros. unfold update_swarm. destruct (match c_kind c with Binary => _ | _ => _ end) as [w|x]; [|reflexivity].
  destruct (compute_velocity _ _ _ _ _ _) as [[v vm]|x]; [|reflexivity]. destruct (c_kind c).
  all: try (destruct (compute_position _ _ _ _ _) as [[p bm]|x]; reflexivity).
  destruct (binary_position _ _ _) as [p|x]; reflexivity.
Qed.
Lemma synced_same : forall s u, o_pos_history (synced s u) = o_pos_history (l_o s) /\ s_position (o_swarm (synced s u)) = s_position (o_swarm (l_o s)).
Proof. intros. unfold synced. destruct (l_same s); split; reflexivity. Qed.
Lemma written_loop : forall c e wr iters m i s q s', live_loop c e wr None iters m i s q = (s', None) ->
  exists xs, o_pos_history (l_o s') = o_pos_history (l_o s) ++ xs /\ l_u s' = written wr i xs (l_u s).
Proof.
  intros c e wr iters m. induction m as [|m IH]; intros i s q s' H; cbn [live_loop] in H.
  { injection H as <-. exists []. rewrite app_nil_r. split; reflexivity. }
  assert (P : forall s1, match live_iteration c e wr None iters i s q with LNext s2 _ | LBreak s2 => s2 = s1 | LStop _ _ => False end ->
    o_pos_history (l_o s1) = o_pos_history (l_o s) ++ [s_position (o_swarm (l_o s))] /\ l_u s1 = wr i (s_position (o_swarm (l_o s))) (l_u s)).
  { intros s1. unfold live_iteration. set (u := wr i (s_position (o_swarm (l_o s))) (l_u s)). fold (synced s u). destruct (synced_same s u) as [Y1 Y2].
    pose proof (eval_history (asked c u) e None i (synced s u) q) as E. rewrite Y1, Y2 in E. destruct (evaluate_swarm (asked c u) e None i (synced s u) q) as [o1 q1|o1|o1 x]; [|intros <-; split; [exact E|reflexivity]|contradiction].
    pose proof (update_history (with_options c u) e iters i o1 q1) as U. destruct (update_swarm (with_options c u) e iters i o1 q1) as [o2 q2|o2|o2 x]; [| |contradiction]; intros <-; cbn [l_o l_u]; (split; [rewrite U; exact E|reflexivity]). }
  destruct (live_iteration c e wr None iters i s q) as [s1 q1|s1|s1 x]; [| |discriminate].
  - destruct (P s1 eq_refl) as [P1 P2]. destruct (IH _ _ _ _ H) as (xs & X1 & X2). exists (s_position (o_swarm (l_o s)) :: xs). split; [rewrite X1, P1, <- app_assoc; reflexivity|]. rewrite X2, P2. reflexivity.
  - injection H as <-. destruct (P s1 eq_refl) as [P1 P2]. exists [s_position (o_swarm (l_o s))]. split; [exact P1|exact P2].
Qed.
Lemma live_written : forall c e wr iters s s' v, optimize_live c e wr None iters s = (s', Ok v) ->
  exists xs, o_pos_history (l_o s') = o_pos_history (l_o s) ++ xs /\ l_u s' = written wr 0 xs (l_u s).
Proof.
  intros c e wr iters s s' v H. unfold optimize_live in H. destruct (live_loop _ _ _ _ _ _ _ _ _) as [s1 [x|]] eqn:L; [discriminate|]. injection H as <- _. destruct (written_loop _ _ _ _ _ _ _ _ _ L) as (xs & X1 & X2).
  exists xs. split; [|exact X2]. rewrite X1. cbn [l_o]. unfold start_pbest, start_memory. destruct (c_kind c); reflexivity.
Qed.

(** *** What the contents do *)
Lemma args_same : forall c c' u u', c_kind c' = c_kind c -> c_options c = u -> c_options c' = u' -> same_at knobs u u' -> gbest_args c' = gbest_args c.
Proof. intros c c' u u' K <- <- H. unfold gbest_args. rewrite K, (H "k"), (H "p"), (H "r") by (cbn; tauto). reflexivity. Qed.
Lemma settings_own : forall c u, same_settings c (with_options c u).
Proof. intros. exists u, (c_oh c). reflexivity. Qed.
Lemma settings_refl : forall c, same_settings c c.
Proof. intros c. exists (c_options c), (c_oh c). destruct c; reflexivity. Qed.
Lemma oh_none : forall lib u k, oh_call (N := F64num) lib [] u k = Ok u.
Proof. reflexivity. Qed.
Lemma heard_quiet : forall wr pool i x u, quiet wr pool -> heard pool wr i x u = u.
Proof. intros wr pool i x u [H|H]; unfold heard; [destruct pool; [reflexivity|congruence]|destruct pool; [reflexivity|apply H]]. Qed.
Lemma live_between : forall c e wr pool iters s u' o', quiet wr pool -> c_oh c = [] -> coherent c s ->
  same_at coefficients (l_u s) u' -> same_at knobs (match c_kind c with General => l_u s | _ => c_options c end) u' -> but_options (l_o s) o' -> s_options (o_swarm o') = u' ->
  but_options (l_o (fst (optimize_live c e wr pool iters s))) (fst (optimize (with_options c u') e pool iters o')) /\
  snd (optimize (with_options c u') e pool iters o') = snd (optimize_live c e wr pool iters s).
Proof.
  intros c e wr pool iters s u' o' Q O C H1 H2 B S'. destruct (as_live (with_options c u') e pool iters o' S') as (C' & E1 & E2). rewrite <- E1, <- E2.
  apply pair_optimize with (J := fun a b => a = l_u s /\ b = u'); [exact (settings_own c u')| |exact (conj B (conj (conj eq_refl eq_refl) (conj C C')))].
  intros i x a b Hi [-> ->]. rewrite (heard_quiet wr pool i x (l_u s) Q), (heard_quiet silent pool i x u' (silent_quiet pool)). split; [split; reflexivity|]. cbn [c_oh with_options]. rewrite O, !oh_none. split; [|destruct (c_kind c); exact H1].
  unfold asked. cbn [c_kind with_options]. destruct (c_kind c) eqn:K; (eapply args_same; [| | |exact H2]); cbn [c_kind with_options c_options]; congruence.
Qed.
Lemma live_coefficients : forall c e wr wr' pool iters s s', c_kind c <> General -> c_oh c = [] -> coherent c s -> coherent c s' -> but_options (l_o s) (l_o s') ->
  (forall i x u u', same_at coefficients u u' -> same_at coefficients (wr i x u) (wr' i x u')) -> same_at coefficients (l_u s) (l_u s') ->
  but_options (l_o (fst (optimize_live c e wr pool iters s))) (l_o (fst (optimize_live c e wr' pool iters s'))) /\
  snd (optimize_live c e wr' pool iters s') = snd (optimize_live c e wr pool iters s).
Proof.
  intros c e wr wr' pool iters s s' K O C C' B W U. apply pair_optimize with (J := same_at coefficients); [exact (settings_refl c)| |exact (conj B (conj U (conj C C')))].
  intros i x u u' Hi H. assert (H' : same_at coefficients (heard pool wr i x u) (heard pool wr' i x u')) by (unfold heard; destruct pool; [exact H|exact (W i x u u' H)]).
  split; [exact H'|]. rewrite O, !oh_none. split; [unfold asked; destruct (c_kind c); congruence|]. destruct (c_kind c); exact H'.
Qed.
Lemma live_schedule : forall c e wr iters o opts, c_kind c <> Binary -> s_options (o_swarm o) = c_options c -> schedule c e iters opts ->
  (forall i x u, i < iters -> same_at coefficients (opts i) (wr i x u)) -> (c_kind c = General -> forall i x u, i < iters -> same_at knobs (c_options c) (wr i x u)) ->
  let s := mkL o (c_options c) true in
  but_options (fst (optimize c e None iters o)) (l_o (fst (optimize_live (no_strategy c) e wr None iters s))) /\
  snd (optimize_live (no_strategy c) e wr None iters s) = snd (optimize c e None iters o).
Proof.
  intros c e wr iters o opts K S0 SC W G s. destruct (as_live c e None iters o S0) as (C & E1 & E2). rewrite <- E1, <- E2.
  assert (C' : coherent (no_strategy c) s) by exact C.
  apply pair_optimize with (J := fun a b => a = c_options c); [exists (c_options c), []; reflexivity| |exact (conj (but_refl o) (conj eq_refl (conj C C')))].
  intros i x a b Hi ->. cbn [heard]. unfold silent. split; [reflexivity|]. split.
  - unfold asked. cbn [c_kind no_strategy]. destruct (c_kind c) eqn:KK; try reflexivity. eapply args_same; [| | |exact (G eq_refl i x b Hi)]; reflexivity.
  - cbn [c_oh no_strategy]. rewrite oh_none, (SC i Hi). destruct (c_kind c); try exact (W i x b Hi). congruence.
Qed.
