(** Computed counterexamples. *)
From Coq Require Import String ZArith List Arith Bool Lia Reals Lra.
From Flocq Require Import Core IEEE754.BinarySingleNaN.
From Verif Require Import Prelude F64 F64Facts Num Np Handlers Swarms Operators Generators Topology Optimizers Spec Demo.
Import ListNotations.
Local Open Scope string_scope.
Local Open Scope list_scope.

(** *** C05: the second call pairs the old cost with a new position *)
Definition w5_cfg := d_config GlobalBest 3 2 None None "nearest" "unmodified".
Definition w5_env := d_env 3 2 d_obj.
Lemma w5_mismatch : d_test false (d_run2 w5_cfg star (d_cd 0 3 2) w5_env w5_env None 1 1)
  (fun _ cost pos => flt cost (sq pos)) = true.
Proof. vm_compute. reflexivity. Qed.
Lemma d_obj_rows : forall t X, d_obj t X = Ok (map sq X).
Proof. intros t X. unfold d_obj. induction X as [|r X IH]; cbn [mapM bind map]; auto. rewrite IH. reflexivity. Qed.
Theorem second_call_mismatch : exists c o e o1 v1 o2 cost pos (g : frow -> f64),
  Fresh c o /\ c_kind c = GlobalBest /\ t_kind (o_top o) = Star /\
  (forall t X, e_obj e t X = Ok (map g X)) /\
  optimize c e None 1 o = (o1, Ok v1) /\ optimize c e None 1 o1 = (o2, Ok (cost, pos)) /\
  flt cost (g pos) = true.
Proof.
  destruct (d_run2_test _ _ _ _ _ _ _ _ _ w5_mismatch) as (o & o1 & v1 & o2 & cost & pos & _ & F & T & E1 & E2 & L).
  exists w5_cfg, o, w5_env, o1, v1, o2, cost, pos, sq.
  split; [exact F|]. split; [reflexivity|]. split; [rewrite T; reflexivity|]. split; [exact d_obj_rows|]. auto.
Qed.

(** *** C07: the best particle in no neighbour list *)
Lemma map_inj : forall A B (f : A -> B), (forall x y, f x = f y -> x = y) -> forall l m, map f l = map f m -> l = m.
Proof. intros A B f H. induction l; intros [|b m] E; cbn in E; try discriminate; auto. injection E as E1 E2. f_equal; auto. Qed.
Definition sf : list f64 -> list SpecFloat.spec_float := map B2SF.
Definition sf2 : fmatrix -> list (list SpecFloat.spec_float) := map sf.
Lemma sf2_inj : forall a b, sf2 a = sf2 b -> a = b.
Proof. apply map_inj. apply map_inj. apply B2SF_inj. Qed.

Definition w7_cfg : config :=
  {| c_kind := Binary; c_n := 3; c_d := 1; c_options := d_options; c_bounds := None; c_clamp := None;
     c_center := [fone]; c_ftol := fninf; c_ftol_iter := 1; c_init := None;
     c_bh := "nearest"; c_vh := "unmodified"; c_oh := [] |}.
Definition zeros31 : fmatrix := [[fzero]; [fzero]; [fzero]].
Definition w7_cd : create_draws := mkCd zeros31 [[true]; [true]; [false]] zeros31.
Definition w7_rows (t : nat) : list (list nat) :=
  match t with O => [[0; 1]; [0; 1]; [2; 0]] | _ => [[0; 1]; [0; 1]; [0; 1]] end.
Definition w7_env : env :=
  {| e_obj := fun _ X => Ok (map (fun r => nth 0 r fzero) X);
     e_vel := fun t => mkVd (N := F64num) zeros31 zeros31;
     e_bh := fun t => mkBhDraws (N := F64num) [] [] 0;
     e_oh := fun t => mkOhLib (N := F64num) (fun x => x) (fun x _ => x) (fun _ => fzero);
     e_top := fun t => mkTe (fun _ _ _ => Ok (w7_rows t)) (fun _ => Err ValueError) [];
     e_bits := fun _ => [fofZe 1 (-2)];
     e_exp := fun _ => fone;                 (* only evaluated at -0 *)
     e_tree := fun m => left_tree (m - 1) |}.
Definition w7_X (t : nat) : fmatrix := match t with O => [[fone]; [fone]; [fzero]] | _ => [[fone]; [fone]; [fone]] end.
Lemma w7_ok : is_ok (d_run w7_cfg (topo Ring false) w7_cd w7_env None 2) = true.
Proof. vm_compute. reflexivity. Qed.
Lemma w7_run : d_test ([], [], B2SF fnan) (d_run w7_cfg (topo Ring false) w7_cd w7_env None 2)
  (fun o' cost pos => (map sf2 (o_pos_history o'), sf pos, B2SF cost)) = (map sf2 [w7_X 0; w7_X 1], sf [fzero], B2SF fone).
Proof. vm_compute. reflexivity. Qed.
Lemma FR_one : FR fone = 1%R. Proof. fconst. Qed.
Lemma FR_zero : FR fzero = 0%R. Proof. reflexivity. Qed.
#[local] Opaque fone fzero.
Lemma w7_contract : forall t, t < 2 -> knn_contract l1dist 2 (w7_X t) (w7_rows t).
Proof.
  intros t Ht. destruct t as [|[|t]]; [| |lia].
  all: split; [reflexivity|]; intros i row xi E1 E2.
  all: cbn in E1, E2; destruct i as [|[|[|i]]]; cbn in E1, E2; try (destruct i; discriminate);
       injection E1 as <-; injection E2 as <-.
  all: split; [repeat constructor; cbn; intuition lia|]; split; [reflexivity|]; split; [cbn; intuition lia|].
  all: intros j m xj xm Ij Nm Ej Em; cbn in Ij, Nm;
       destruct m as [|[|[|m]]]; cbn in Em; try (destruct m; discriminate); try (exfalso; tauto); injection Em as <-;
       intuition; subst; cbn in Ej; injection Ej as <-; cbn [l1dist];
       change (@B2R prec emax fone) with (FR fone); change (@B2R prec emax fzero) with (FR fzero);
       rewrite ?FR_one, ?FR_zero; unfold Rabs; repeat destruct Rcase_abs; lra.
Qed.
#[local] Transparent fone fzero.
Theorem neighbours_lose_best : exists c o e o' cost pos (g : frow -> f64),
  Fresh c o /\ c_kind c = Binary /\ t_kind (o_top o) = Ring /\
  (forall t X, e_obj e t X = Ok (map g X)) /\
  optimize c e None 2 o = (o', Ok (cost, pos)) /\
  (forall t X rows, nth_error (o_pos_history o') t = Some X -> te_knn (e_top e t) 2 2 X = Ok rows ->
     knn_contract l1dist 2 X rows) /\
  flt (g pos) cost = true.
Proof.
  destruct (d_run_test _ _ _ _ _ _ _ _ _ _ w7_ok w7_run) as (o & o' & cost & pos & _ & FO & T & E2 & H).
  apply pair_equal_spec in H. destruct H as [H H3]. apply pair_equal_spec in H. destruct H as [H1 H2].
  apply (map_inj _ _ _ sf2_inj) in H1. apply (map_inj _ _ _ (B2SF_inj _ _)) in H2. apply B2SF_inj in H3.
  exists w7_cfg, o, w7_env, o', cost, pos, (fun r => nth 0 r fzero).
  split; [exact FO|]. split; [reflexivity|]. split; [rewrite T; reflexivity|].
  split; [reflexivity|]. split; [exact E2|]. split; [|rewrite H2, H3; vm_compute; reflexivity].
  intros t X rows Et Er. rewrite H1 in Et.
  cbn [e_top w7_env te_knn] in Er. injection Er as <-.
  destruct t as [|[|t]]; cbn [nth_error] in Et; [| |destruct t; discriminate Et].
  - assert (X = w7_X 0) by congruence. subst X. apply (w7_contract 0). lia.
  - assert (X = w7_X 1) by congruence. subst X. apply (w7_contract 1). lia.
Qed.

(** *** C44: a static Ring keeps its neighbour lists over [reset] *)
Definition w44_top : topology := topo Ring true.
Definition w44_cd0 : create_draws := mkCd zeros31 [[false]; [false]; [false]] zeros31.
Definition w44_env (rows : list (list nat)) : env :=
  mkEnv (e_obj w7_env) (e_vel w7_env) (e_bh w7_env) (e_oh w7_env)
    (fun _ => mkTe (fun _ _ _ => Ok rows) (fun _ => Err ValueError) [])
    (e_bits w7_env) (e_exp w7_env) (e_tree w7_env).
Definition w44_e0 := w44_env (w7_rows 1).
Definition w44_e1 := w44_env (w7_rows 0).
(** Cost returned after [reset], and by a new object. *)
Definition after_reset (c : config) (top : topology) (dr0 dr : create_draws) (e0 e1 : env) : res (f64 * f64) :=
  do o <- construct c top dr0;
  do o2 <- reset c dr (fst (optimize c e0 None 1 o));
  do o3 <- construct c top dr;
  do v2 <- snd (optimize c e1 None 1 o2);
  do v3 <- snd (optimize c e1 None 1 o3);
  Ok (fst v2, fst v3).
Definition pair_test (P : f64 -> f64 -> bool) (r : res (f64 * f64)) : bool :=
  match r with Ok (a, b) => P a b | _ => false end.
Lemma after_reset_inv : forall c top dr0 dr e0 e1 (P : f64 -> f64 -> bool),
  pair_test P (after_reset c top dr0 dr e0 e1) = true ->
  exists o o1 r1 o2 o3 v2 v3, construct c top dr0 = Ok o /\ optimize c e0 None 1 o = (o1, r1) /\
    reset c dr o1 = Ok o2 /\ construct c top dr = Ok o3 /\
    snd (optimize c e1 None 1 o2) = Ok v2 /\ snd (optimize c e1 None 1 o3) = Ok v3 /\ P (fst v2) (fst v3) = true.
Proof.
  unfold after_reset, pair_test. intros c top dr0 dr e0 e1 P H. destruct (construct c top dr0) as [o|] eqn:E1; [|discriminate].
  cbn [bind] in H. destruct (optimize c e0 None 1 o) as [o1 r1] eqn:E2. cbn [fst] in H.
  destruct (reset c dr o1) as [o2|] eqn:E3; [|discriminate]. cbn [bind] in H.
  destruct (construct c top dr) as [o3|] eqn:E4; [|discriminate]. cbn [bind] in H.
  destruct (snd (optimize c e1 None 1 o2)) as [v2|] eqn:E5; [|discriminate]. cbn [bind] in H.
  destruct (snd (optimize c e1 None 1 o3)) as [v3|] eqn:E6; [|discriminate]. cbn [bind] in H.
  exists o, o1, r1, o2, o3, v2, v3. repeat split; auto.
Qed.
Lemma w44_run : pair_test (fun a b => flt b a) (after_reset w7_cfg w44_top w44_cd0 w7_cd w44_e0 w44_e1) = true.
Proof. vm_compute. reflexivity. Qed.
Theorem static_reset_differs : exists c top dr0 dr e0 e1 o o1 r1 o2 o3 v2 v3,
  t_static top = true /\ t_nb top = None /\ construct c top dr0 = Ok o /\
  optimize c e0 None 1 o = (o1, r1) /\ reset c dr o1 = Ok o2 /\ construct c top dr = Ok o3 /\
  snd (optimize c e1 None 1 o2) = Ok v2 /\ snd (optimize c e1 None 1 o3) = Ok v3 /\
  flt (fst v3) (fst v2) = true.
Proof.
  destruct (after_reset_inv _ _ _ _ _ _ _ w44_run) as (o & o1 & r1 & o2 & o3 & v2 & v3 & H1 & H2 & H3 & H4 & H5 & H6 & H7).
  exists w7_cfg, w44_top, w44_cd0, w7_cd, w44_e0, w44_e1, o, o1, r1, o2, o3, v2, v3.
  split; [reflexivity|]. split; [reflexivity|]. auto 10.
Qed.
#[local] Opaque fone fzero.
(** Two particles share a position, [k = 2]. *)
Lemma w7_coincide : at_most_coincide l1dist 2 (w7_X 0).
Proof.
  intros i xi l E ND H. assert (B : forall j, In j l -> j < 3 /\ (i = 2 -> j = 2) /\ (i < 2 -> j < 2)).
  { intros j I. destruct (H j I) as (xj & Ej & D).
    destruct i as [|[|[|i]]]; cbn in E; try (destruct i; discriminate); injection E as <-;
    destruct j as [|[|[|j]]]; cbn in Ej; try (destruct j; discriminate); injection Ej as <-; try lia;
    exfalso; cbn [l1dist] in D;
    change (@B2R prec emax fone) with (FR fone) in D; change (@B2R prec emax fzero) with (FR fzero) in D;
    rewrite ?FR_one, ?FR_zero in D; revert D; unfold Rabs; repeat destruct Rcase_abs; lra. }
  assert (L : i < 3). { change 3 with (length (w7_X 0)). apply nth_error_Some. rewrite E. discriminate. }
  destruct (Nat.eq_dec i 2) as [->|N].
  - transitivity (length [2]); [|cbn; lia]. apply NoDup_incl_length; auto. intros j I. destruct (B j I) as (_ & Q & _). left. symmetry. auto.
  - change 2 with (length [0; 1]). apply NoDup_incl_length; auto. intros j I. destruct (B j I) as (_ & _ & Q). cbn. lia.
Qed.
Lemma w7_dist : (forall x, l1dist x x = 0%R) /\ (forall x y, (0 <= l1dist x y)%R).
Proof.
  split.
  - induction x as [|a x IH]; cbn; auto. rewrite IH. rewrite Rminus_diag_eq by reflexivity. rewrite Rabs_R0. lra.
  - induction x as [|a x IH]; intros [|b y]; cbn; try lra. specialize (IH y). pose proof (Rabs_pos (B2R a - B2R b)). lra.
Qed.
Lemma w7_covered : knn_contract l1dist 2 (w7_X 0) (w7_rows 0) /\ at_most_coincide l1dist 2 (w7_X 0) /\
  (forall x, l1dist x x = 0%R) /\ (forall x y, (0 <= l1dist x y)%R).
Proof. split; [apply w7_contract; lia|]. split; [exact w7_coincide|exact w7_dist]. Qed.
#[local] Transparent fone fzero.
