(** Runs that end and runs that do not (C83). *)
From Coq Require Import String ZArith List Arith Bool Reals Lra Lia.
From Flocq Require Import Core IEEE754.BinarySingleNaN.
From Verif Require Import Prelude F64 F64Facts F64More Num Np Handlers Swarms Operators Generators Topology Optimizers Spec SpecHandlers SpecDyn SpecTame SpecReflect
  ListFacts NpFacts ShapeFacts HandlerFacts BhReal BhClaims RunFacts Demo ExamplesHandlers ExamplesMotion Tame RunMain ExamplesDyn ExamplesTame ReflectEnd StartRun.
Import ListNotations.
Local Open Scope string_scope.
Local Open Scope list_scope.
Local Open Scope nat_scope.
#[local] Arguments fdec : simpl never.
#[local] Arguments fofZ : simpl never.

(** One particle in the unit interval with the inertia weight 1e30 and no clamp. *)
Definition en_bounds : bounds F64num := mkBounds (N := F64num) [F 0] [F 1] true.
Definition en_options : options F64num := [("c1", PFloat (fzero : F64num)); ("c2", PFloat (fzero : F64num)); ("w", PFloat (f1e30 : F64num))].
Definition en_c : config := mkConfig GlobalBest 1 1 en_options (Some en_bounds) None [fone] fninf 1 None "reflective" "unmodified" [].
Definition en_cd : create_draws := mkCd [[fhalf]] [[false]] [[fhalf]].
Definition en_e (fuel : nat) : env := mkEnv d_obj (fun _ => mkVd (N := F64num) [[fhalf]] [[fhalf]]) (fun _ => mkBhDraws (N := F64num) [] [] fuel)
  (e_oh (d_env 1 1 d_obj)) (fun _ => d_te 1) (fun _ => []) (fun x => x) (e_tree (d_env 1 1 d_obj)).
Definition en_move (o : ostate) : option f64 :=
  match evaluate_swarm en_c (en_e 0) None 0 (started en_c o) [] with
  | Next o2 _ =>
      match compute_velocity (e_vel (en_e 0) 0) "unmodified" (o_vmem o2) (set_options (o_swarm o2) en_options) None (Some en_bounds) with
      | Ok (v, _) => if same_shape (s_position (o_swarm o2)) v then match map2 (map2 fadd) (s_position (o_swarm o2)) v with [[x]] => Some x | _ => None end else None
      | Err _ => None
      end
  | _ => None
  end.
Definition en_far (x : f64) : bool := ffinite x && flt (F (2 ^ 60)) x.
Lemma en_test : match construct en_c star en_cd with Ok o => match en_move o with Some x => en_far x | None => false end | Err _ => false end = true.
Proof. vm_compute. reflexivity. Qed.
Lemma F60_R : FR (F (2 ^ 60)) = bpow radix2 60. Proof. fconst. Qed.
Lemma en_hangs : forall x mem fuel, en_far x = true -> bh_call (N := F64num) "reflective" (mkBhDraws (N := F64num) [] [] fuel) mem en_bounds [[x]] = Err OutOfFuel.
Proof.
  intros x mem fuel H. apply andb_true_iff in H. destruct H as [Fx H]. apply (flt_fin (F (2 ^ 60)) x eq_refl Fx) in H. rewrite F60_R in H.
  assert (K : (2 ^ 56 * 1 < Rabs (FR x))%R). { eapply Rlt_le_trans; [|apply Rle_abs]. eapply Rle_lt_trans; [|exact H]. change (bpow radix2 60) with (IZR (2 ^ 60)). change (2 ^ 60)%Z with 1152921504606846976%Z. lra. }
  refine (reflective_hangs_far 1 1 mem en_bounds [[x]] 0 0 x (F 0) (F 1) _ _ _ _ _ Fx _ _ _ _ _); try reflexivity.
  - split; [reflexivity|repeat constructor].
  - split; reflexivity.
  - split; reflexivity.
  - rewrite F0_R, Rabs_R0. lra.
  - rewrite F1_R, Rabs_R1. exact K.
Qed.
Lemma endless_run : exists c top dr o, construct c top dr = Ok o /\ c_bh c = "reflective" /\ c_clamp c = None /\ (forall j l u, (exists b, c_bounds c = Some b /\ column b j l u) -> l = F 0 /\ u = F 1) /\
  forall fuel, exists e, callbacks_end e /\ (forall t, bd_fuel (e_bh e t) = fuel) /\ unit_velocity_draws e /\ forall iters, 0 < iters -> endless (snd (optimize c e None iters o)).
Proof.
  pose proof en_test as T. destruct (construct en_c star en_cd) as [o|] eqn:C; [|discriminate]. exists en_c, star, en_cd, o. split; [exact C|]. split; [reflexivity|]. split; [reflexivity|]. split.
  { intros j l u (b & B & L & U). injection B as <-. destruct j as [|[|j]]; [injection L as <-; injection U as <-; auto|discriminate|discriminate]. }
  intros fuel. exists (en_e fuel). split.
  { split; [|split; discriminate]. intros i X. unfold en_e, e_obj, d_obj. apply ends_mapM. discriminate. }
  split; [reflexivity|]. split.
  { intros t i j r [E|E]; cbn in E; destruct i as [|[|i]], j as [|[|j]]; try discriminate; injection E as <-; split; reflexivity. }
  intros [|iters] Hi; [lia|]. unfold optimize, opt_loop. fold opt_loop. change (start_pbest en_c (start_memory en_c o)) with (started en_c o). unfold iteration.
  change (evaluate_swarm en_c (en_e fuel) None 0 (started en_c o) []) with (evaluate_swarm en_c (en_e 0) None 0 (started en_c o) []).
  unfold en_move in T. destruct (evaluate_swarm en_c (en_e 0) None 0 (started en_c o) []) as [o2 q2| |]; [|discriminate|discriminate].
  unfold update_swarm. change (c_kind en_c) with GlobalBest. change (oh_call (e_oh (en_e fuel) 0) (c_oh en_c) (c_options en_c) _) with (Ok en_options).
  cbv beta iota zeta. change (o_vmem (with_swarm o2 (set_options (o_swarm o2) en_options))) with (o_vmem o2). change (c_clamp en_c) with (@None (clamp_t F64num)). change (c_bounds en_c) with (Some en_bounds). change (c_vh en_c) with "unmodified".
  change (e_vel (en_e fuel) 0) with (e_vel (en_e 0) 0). destruct (compute_velocity (e_vel (en_e 0) 0) "unmodified" (o_vmem o2) (set_options (o_swarm o2) en_options) None (Some en_bounds)) as [[v vm]|]; [|discriminate].
  unfold compute_position. cbn [s_position s_velocity set_velocity set_options]. destruct (same_shape (s_position (o_swarm o2)) v); [cbn [negb]|discriminate].
  change (map2 (map2 nadd)) with (map2 (map2 fadd)). change (c_bh en_c) with "reflective". change (e_bh (en_e fuel) 0) with (mkBhDraws (N := F64num) [] [] fuel).
  destruct (map2 (map2 fadd) (s_position (o_swarm o2)) v) as [|[|x [|]] [|]]; try discriminate. match goal with |- context [bh_call _ _ ?mm _ _] => pose proof (en_hangs x mm fuel T) as Q end.
  first [rewrite Q; reflexivity | cbn; cbn in Q; rewrite Q; reflexivity].
Qed.

(** One call of the handler: 37 needs three mirrorings to return to the interval from -5 to 5. *)
Lemma F5_R : FR (F 5) = 5%R. Proof. fconst. Qed.
Lemma Fm5_R : FR (F (-5)) = (-5)%R. Proof. fconst. Qed.
Lemma F37_R : FR (F 37) = 37%R. Proof. fconst. Qed.
Lemma F37_far : within 1020 (F 37).
Proof. split; [reflexivity|]. rewrite F37_R, Rabs_pos_eq by lra. apply (Rle_trans _ (bpow radix2 6)); [change (bpow radix2 6) with 64%R; lra|apply bpow_le; lia]. Qed.
Lemma en_room : forall m : R, (m <= 1000)%R -> forall j l u, column d_bounds j l u -> roomy l u m.
Proof.
  intros m Hm. apply (h_columns (fun l u => roomy l u m)). unfold roomy. rewrite F5_R, Fm5_R.
  split; [apply within_8; [lia|vm_compute; reflexivity]|]. split; [apply within_8; [lia|vm_compute; reflexivity]|]. split; [vm_compute; reflexivity|].
  change (bpow radix2 51) with (IZR (2 ^ 51)). change (2 ^ 51)%Z with 2251799813685248%Z. lra.
Qed.
Lemma en_width : forall j l u, column d_bounds j l u -> FR l = (-5)%R /\ FR u = 5%R.
Proof. apply (h_columns (fun l u => FR l = (-5)%R /\ FR u = 5%R)). split; [exact Fm5_R|exact F5_R]. Qed.
Lemma reflective_call : exists pos : matrix F64num, is_matrix 1 2 pos /\ box_dim 2 d_bounds /\ b_arr d_bounds = true /\
  (exists i j x l u, entry pos i j = Some x /\ column d_bounds j l u /\ flt u x = true) /\
  forall i j x l u, entry pos i j = Some x -> column d_bounds j l u -> fisnan x = true \/
    within 1020 x /\ roomy l u (Rabs (FR x) + Rabs (FR l) + Rabs (FR u)) /\ (4 * (Rabs (FR x) + Rabs (FR l) + Rabs (FR u)) <= INR 19 * (FR u - FR l))%R.
Proof.
  exists [[F 37; fnan]]. split; [split; [reflexivity|repeat constructor]|]. split; [exact h_box_dim|]. split; [reflexivity|].
  split. { exists 0, 0, (F 37), (F (-5)), (F 5). split; [reflexivity|]. split; [split; reflexivity|vm_compute; reflexivity]. }
  intros i j x l u X C. assert (Q : x = F 37 \/ x = fnan).
  { destruct i as [|[|i]]; [|discriminate|discriminate]. destruct j as [|[|[|j]]]; [left; injection X; auto|right; injection X; auto|discriminate|discriminate]. }
  clear X. destruct Q as [->| ->]; [right|left; reflexivity]. pose proof (en_width j l u C) as [L U].
  assert (A : (Rabs (FR (F 37)) + Rabs (FR l) + Rabs (FR u) = 47)%R). { rewrite L, U, F37_R, (Rabs_left (-5)), !Rabs_pos_eq; lra. }
  rewrite A, L, U. split; [exact F37_far|]. split; [apply (en_room 47 ltac:(lra) j l u C)|]. rewrite INR_IZR_INZ. change (Z.of_nat 19) with 19%Z. lra.
Qed.

(** A clamped run, in which particles do leave the box. *)
Definition en_clamp : clamp_t F64num := ([F (-7); F (-7)], [F 7; F 7]).
Notation en_c2 := (u_c m_options (Some d_bounds) (Some en_clamp) "reflective").
Lemma m_ends : callbacks_end m_e.
Proof. split; [|split]; try discriminate. intros i X. unfold m_e, e_obj, d_obj. apply ends_mapM. discriminate. Qed.
Lemma en_roomy : roomy_run d_bounds en_clamp 32.
Proof.
  intros j l u a z C K. pose proof (en_width j l u C) as [L U]. assert (Q : a = F (-7) /\ z = F 7).
  { destruct K as [K1 K2]. destruct j as [|[|[|j]]]; try discriminate; split; [injection K1|injection K2|injection K1|injection K2]; auto. }
  destruct Q as [-> ->].
  assert (A : within 3 (F (-7))) by (apply within_8; [lia|vm_compute; reflexivity]). assert (Z : within 3 (F 7)) by (apply within_8; [lia|vm_compute; reflexivity]).
  cbv zeta. rewrite L, U. rewrite (Rabs_left (-5)), (Rabs_pos_eq 5) by lra. pose proof (proj2 A) as A2. pose proof (proj2 Z) as Z2. change (bpow radix2 3) with 8%R in A2, Z2.
  split; [apply (within_le 3); [lia|exact A]|]. split; [apply (within_le 3); [lia|exact Z]|]. split; [vm_compute; reflexivity|].
  split; [apply en_room with (j := j); [lra|exact C]|]. rewrite INR_IZR_INZ. change (Z.of_nat 32) with 32%Z. lra.
Qed.
Lemma en_run2 : is_ok (d_run en_c2 star m_cd m_e None 4) = true.
Proof. vm_compute. reflexivity. Qed.
Lemma ending_run : exists c e o o' v b cl, callbacks_end e /\ c_kind c <> Binary /\ c_bh c = "reflective" /\ c_vh c = "unmodified" /\ c_bounds c = Some b /\ c_clamp c = Some cl /\
  box_dim (c_d c) b /\ b_arr b = true /\ roomy_run b cl 32 /\ (forall t, 32 <= bd_fuel (e_bh e t)) /\
  is_matrix (c_n c) (c_d c) (s_position (o_swarm o)) /\ none_outside b (s_position (o_swarm o)) /\ optimize c e None 4 o = (o', Ok v).
Proof.
  destruct (d_run_ok _ _ _ _ _ _ en_run2) as (o & o' & v & C & E). exists en_c2, m_e, o, o', v, d_bounds, en_clamp.
  destruct (construct_inv _ _ _ _ C) as (s & M & -> & _).
  destruct (start_box en_c2 m_cd s d_bounds) as [S1 S2]; [discriminate|reflexivity|exact h_box_dim|exact h_finite_box| | |exact M|].
  { intros _. split; [reflexivity|exact (proj1 m_unit)]. } { discriminate. }
  split; [exact m_ends|]. split; [discriminate|]. do 4 (split; [reflexivity|]). split; [exact h_box_dim|]. split; [reflexivity|]. split; [exact en_roomy|].
  split. { intros t. cbn [m_e e_bh bd_fuel]. apply Nat.leb_le. reflexivity. }
  split; [exact S1|]. split; [|exact E]. intros i j x l u X K. destruct (S2 i j x l u X K) as [H1 H2]. clear - H1 H2. split; forder.
Qed.
Definition en_short : env := mkEnv d_obj (e_vel m_e) (fun _ => mkBhDraws (N := F64num) [] [] 0) (e_oh m_e) (e_top m_e) (e_bits m_e) (e_exp m_e) (e_tree m_e).
Definition out_of_fuel {A} (r : res A) : bool := match r with Err OutOfFuel => true | _ => false end.
Lemma en_needs : out_of_fuel (d_run en_c2 star m_cd en_short None 4) = true.
Proof. vm_compute. reflexivity. Qed.
Lemma other_run : forall bh, In bh tame_strategies -> exists o o' v, callbacks_end m_e /\ optimize (m_c bh "unmodified" None) m_e None 4 o = (o', Ok v) /\ Fresh (m_c bh "unmodified" None) o.
Proof.
  intros bh I.
  assert (O : is_ok (m_run bh "unmodified" None) = true).
  { cbn in I. destruct I as [<-|[<-|[<-|[<-|[<-|[]]]]]]; vm_compute; reflexivity. }
  destruct (d_run_ok _ _ _ _ _ _ O) as (o1 & o2 & v1 & C & E). exists o1, o2, v1. split; [exact m_ends|]. split; [exact E|exact (construct_fresh _ _ _ _ C)].
Qed.
