(** Cases that meet the hypotheses of C89. *)
From Coq Require Import String ZArith List Arith Bool Lia.
From Verif Require Import Prelude F64 Num Np ListFacts Handlers Swarms Operators Generators Topology Optimizers Spec SpecHandlers SpecOpts SpecRun SpecReflect SpecSafe Shapes SafeFacts SafeMore Demo ExamplesHandlers ExamplesMotion ExamplesTame ExamplesReflect ExamplesPlot ExamplesOne.
Import ListNotations.
Local Open Scope string_scope.
Local Open Scope list_scope.
Local Open Scope nat_scope.

(** Six particles in two dimensions, with bounds, a clamp, strategies that need them and an inertia that varies. *)
Definition sf_c (bh : string) : config :=
  {| c_kind := General; c_n := 6; c_d := 2; c_options := d_options; c_bounds := Some d_bounds; c_clamp := Some en_clamp;
     c_center := repeat fone 2; c_ftol := fninf; c_ftol_iter := 1; c_init := None;
     c_bh := bh; c_vh := "invert"; c_oh := [("w", "lin_variation"); ("c1", "exp_decay")] |}.
Definition sf_obj : nat -> fmatrix -> res (list f64) := fun _ X => Ok (map (fun r => if flt (hd fzero r) fzero then fzero else fone) X).
Definition sf_fail : nat -> fmatrix -> res (list f64) := fun i _ => Err (UserError i).
Definition sf_env (obj : nat -> fmatrix -> res (list f64)) : env :=
  {| e_obj := obj; e_vel := e_vel (d_env 6 2 obj); e_bh := fun t => mkBhDraws (N := F64num) (repeat (d_draw t 1 1) 2) (repeat (d_draw t 2 1) 2) 64;
     e_oh := e_oh (d_env 6 2 obj); e_top := e_top (d_env 6 2 obj); e_bits := e_bits (d_env 6 2 obj); e_exp := e_exp (d_env 6 2 obj); e_tree := e_tree (d_env 6 2 obj) |}.
Definition sf_l : list request := [mkRequest (sf_env sf_fail) None 5; mkRequest (sf_env sf_obj) (Some 2) 3].
Definition sf_t (t : topo_kind) : topology := mkTopo t false None.

Lemma sf_construct : is_ok (construct (sf_c "shrink") (sf_t Star) (d_cd 0 6 2)) = true. Proof. vm_compute. reflexivity. Qed.
Lemma sf_built : forall t bh, is_ok (construct (sf_c bh) (sf_t t) (d_cd 0 6 2)) = true.
Proof. intros t bh. transitivity (is_ok (construct (sf_c "shrink") (sf_t Star) (d_cd 0 6 2))); [|exact sf_construct]. unfold construct. cbn [c_kind sf_c]. 
 reflexivity. Qed.
Lemma sf_consistent : forall bh, In bh ["nearest"; "random"; "periodic"; "reflective"; "shrink"; "intermediate"] -> consistent (sf_c bh).
Proof.
  intros bh B. split; [cbn; lia|]. split; [cbn; lia|]. split; [cbn; repeat (constructor; [cbn; intuition discriminate|]); constructor|].
  split; [intros k [<-|[<-|[<-|[]]]]; discriminate|]. split; [right; right; split; [left; reflexivity|split; discriminate]|].
  intros _ b E. injection E as <-. change (c_bh (sf_c bh)) with bh. cbn in B |- *. tauto.
Qed.
Lemma sf_suits : forall t bh, suits (sf_c bh) t.
Proof.
  intros [] bh; cbn [suits]; auto.
  - split; [discriminate|]. exists 2%Z, 2%Z. split; [reflexivity|]. split; [reflexivity|]. cbn. lia.
  - split; [reflexivity|]. exists 2%Z, 1%Z. split; [reflexivity|]. split; [reflexivity|]. split; [lia|]. apply Nat.leb_le. reflexivity.
  - split; [discriminate|]. exists 2%Z. split; [reflexivity|]. cbn. lia.
Qed.
Lemma sf_hoods : hoods 6 (d_rows 6).
Proof. split; [reflexivity|]. cbn. repeat (constructor; [split; [discriminate|repeat (constructor; [lia|]); constructor]|]). constructor. Qed.
Lemma sf_delivers : forall t bh obj iters, delivers (sf_c bh) t (sf_env obj) iters.
Proof.
  intros t bh obj iters i I. split; [apply d_mat_shape|]. split; [apply d_mat_shape|]. split; [discriminate|]. split; [intros _; split; reflexivity|]. split; [|split].
  - intros _ opt s O G. assert (C : (opt = "w" /\ s = "lin_variation") \/ (opt = "c1" /\ s = "exp_decay")).
    { change (dget [("w", "lin_variation"); ("c1", "exp_decay")] opt = Some s) in G. cbn [dget] in G. destruct (String.eqb_spec opt "w") as [->|]; [injection G as <-; auto|]. destruct (String.eqb_spec opt "c1") as [->|]; [injection G as <-; auto|discriminate]. }
    apply varied; [destruct C as [[-> _]|[-> _]]; cbn; tauto|intros k [<-|[<-|[<-|[]]]]; discriminate|lia|tauto].
  - intros _ p k X _ _. exists (d_rows 6). split; [reflexivity|exact sf_hoods].
  - intros _ X _. exists (d_rows 6). split; [reflexivity|exact sf_hoods].
Qed.
Lemma sf_answers : forall iters, answers 2 (sf_env sf_obj) iters.
Proof. intros iters i X _ _. eexists. split; [reflexivity|]. apply map_length. Qed.
Lemma sf_zero : flt fzero finf = true. Proof. reflexivity. Qed.
Lemma sf_one : flt fone finf = true. Proof. vm_compute. reflexivity. Qed.
Lemma sf_below : stays_below 2 (sf_env sf_obj).
Proof.
  intros X cs v _ E V. change (Ok (map (fun r => if flt (hd fzero r) fzero then fzero else fone) X) = Ok cs) in E. injection E as <-.
  apply in_map_iff in V. destruct V as (r & <- & _). destruct (flt (hd fzero r) fzero); [exact sf_zero|exact sf_one].
Qed.
(** A first call whose objective raises and a second one that returns; then every topology and every boundary strategy meets the hypotheses. *)
Lemma safe_demo : forall t bh, In bh ["nearest"; "random"; "periodic"; "reflective"; "shrink"; "intermediate"] -> exists c top dr o l e pool iters,
  t_kind top = t /\ c_bh c = bh /\ length l = 2 /\ construct c top dr = Ok o /\ t_nb top = None /\ shaped_draws (c_n c) (c_d c) dr /\ (forall p, c_init c = Some p -> is_matrix (c_n c) (c_d c) p) /\
  consistent c /\ suits c (t_kind top) /\ 2 <= c_d c /\ Forall (fun q => delivers c (t_kind top) (q_env q) (q_iters q)) l /\
  delivers c (t_kind top) e iters /\ answers (c_d c) e iters /\ stays_below (c_d c) e /\ pool <> Some 0 /\ 1 <= iters.
Proof.
  intros t bh B. destruct (ok_ex _ _ (sf_built t bh)) as [o C]. exists (sf_c bh), (sf_t t), (d_cd 0 6 2), o, sf_l, (sf_env sf_obj), (Some 3), 10.
  split; [reflexivity|]. split; [reflexivity|]. split; [reflexivity|]. split; [exact C|]. split; [reflexivity|]. split; [apply d_cd_shaped|]. split; [discriminate|].
  split; [apply sf_consistent, B|]. split; [apply sf_suits|]. split; [cbn; lia|]. split; [constructor; [apply sf_delivers|constructor; [apply sf_delivers|constructor]]|].
  split; [apply sf_delivers|]. split; [apply sf_answers|]. split; [apply sf_below|]. split; [discriminate|lia].
Qed.
(** The first of the earlier calls does raise. *)
Definition sf_first : res bool := do o <- construct (sf_c "shrink") (sf_t Star) (d_cd 0 6 2); match snd (optimize (sf_c "shrink") (sf_env sf_fail) None 5 o) with Err (UserError 0) => Ok true | _ => Ok false end.
Lemma sf_raises : sf_first = Ok true. Proof. vm_compute. reflexivity. Qed.
Lemma first_inv : forall (r : res ostate) (f : ostate -> res (f64 * frow)), (do o <- r; match f o with Err (UserError 0) => Ok true | _ => Ok false end) = Ok true -> exists o, r = Ok o /\ f o = Err (UserError 0).
Proof.
  intros [o|x] f H; [|discriminate]. cbn [bind] in H. exists o. split; [reflexivity|]. destruct (f o) as [v|x]; [discriminate|]. destruct x as [| | | | | | | | |u| |]; try discriminate. destruct u; [reflexivity|discriminate].
Qed.
Lemma recovers_demo : exists o, construct (sf_c "shrink") (sf_t Star) (d_cd 0 6 2) = Ok o /\ snd (optimize (sf_c "shrink") (sf_env sf_fail) None 5 o) = Err (UserError 0) /\
  exists v, snd (optimize (sf_c "shrink") (sf_env sf_obj) (Some 3) 10 (served (sf_c "shrink") [mkRequest (sf_env sf_fail) None 5] o)) = Ok v.
Proof.
  destruct (first_inv (construct (sf_c "shrink") (sf_t Star) (d_cd 0 6 2)) (fun o => snd (optimize (sf_c "shrink") (sf_env sf_fail) None 5 o)) sf_raises) as (o & C & R). exists o. split; [exact C|]. split; [exact R|].
  refine (always_returns (sf_c "shrink") (sf_t Star) (d_cd 0 6 2) o _ _ _ _ C eq_refl (d_cd_shaped 0 6 2) _ (sf_consistent "shrink" _) (sf_suits Star "shrink") _ _ (sf_delivers _ _ _ _) (sf_answers _) sf_below _ _ _); try discriminate; try lia.
  - cbn. tauto.
  - intros _. right. cbn. lia.
  - constructor; [apply sf_delivers|constructor].
Qed.
(** All the hypotheses but [promising]: a global-best swarm without a cost below infinity raises. *)
Definition sf_nan : res bool := do o <- construct (sf_c "shrink") (sf_t Star) (d_cd 0 6 2); match snd (optimize (sf_c "shrink") (sf_env on_nan) None 5 o) with Err ValueError => Ok true | _ => Ok false end.
Lemma sf_nan_raises : sf_nan = Ok true. Proof. vm_compute. reflexivity. Qed.
Lemma nan_inv : forall (r : res ostate) (f : ostate -> res (f64 * frow)), (do o <- r; match f o with Err ValueError => Ok true | _ => Ok false end) = Ok true -> exists o, r = Ok o /\ f o = Err ValueError.
Proof. intros [o|x] f H; [|discriminate]. cbn [bind] in H. exists o. split; [reflexivity|]. destruct (f o) as [v|[]]; try discriminate. reflexivity. Qed.
Lemma promising_needed : exists o, construct (sf_c "shrink") (sf_t Star) (d_cd 0 6 2) = Ok o /\ consistent (sf_c "shrink") /\ delivers (sf_c "shrink") Star (sf_env on_nan) 5 /\ answers 2 (sf_env on_nan) 5 /\
  snd (optimize (sf_c "shrink") (sf_env on_nan) None 5 o) = Err ValueError.
Proof.
  destruct (nan_inv (construct (sf_c "shrink") (sf_t Star) (d_cd 0 6 2)) (fun o => snd (optimize (sf_c "shrink") (sf_env on_nan) None 5 o)) sf_nan_raises) as (o & C & R). exists o. split; [exact C|]. split; [apply sf_consistent; cbn; tauto|]. split; [apply sf_delivers|]. split; [|exact R].
  intros i X _ _. eexists. split; [reflexivity|]. apply map_length.
Qed.
Lemma varied_demo : In "w" ["c1"; "c2"; "w"] /\ (forall k, In k ["c1"; "c2"; "w"] -> dget d_options k <> None) /\ (0 <= 3 < 10)%Z.
Proof. split; [cbn; tauto|]. split; [intros k [<-|[<-|[<-|[]]]]; discriminate|lia]. Qed.
Lemma sf_unit : unit_matrix 6 2 (cd_pos (d_cd 0 6 2)). Proof. apply unit_matrix_ok; vm_compute; reflexivity. Qed.
Lemma sf_fuel : forall t, 32 <= bd_fuel (e_bh (sf_env sf_obj) t). Proof. intros t. cbn [sf_env e_bh bd_fuel]. apply Nat.leb_le. reflexivity. Qed.
Lemma reflective_demo : forall t, exists c top dr o l e pool iters b cl k,
  t_kind top = t /\ length l = 2 /\ construct c top dr = Ok o /\ t_nb top = None /\ shaped_draws (c_n c) (c_d c) dr /\ consistent c /\ suits c (t_kind top) /\ 2 <= c_d c /\
  Forall (fun q => delivers c (t_kind top) (q_env q) (q_iters q)) l /\ delivers c (t_kind top) e iters /\ answers (c_d c) e iters /\ stays_below (c_d c) e /\ pool <> Some 0 /\ 1 <= iters /\
  c_kind c <> Binary /\ c_bh c = "reflective" /\ c_vh c = "invert" /\ c_bounds c = Some b /\ finite_box b /\ (c_init c = None /\ c_center c = repeat fone (c_d c) /\ unit_matrix (c_n c) (c_d c) (cd_pos dr)) /\
  c_clamp c = Some cl /\ roomy_run b cl k /\ (forall t, k <= bd_fuel (e_bh e t)) /\ callbacks_end e.
Proof.
  intros t. destruct (ok_ex _ _ (sf_built t "reflective")) as [o C]. exists (sf_c "reflective"), (sf_t t), (d_cd 0 6 2), o, sf_l, (sf_env sf_obj), (Some 3), 10, d_bounds, en_clamp, 32.
  split; [reflexivity|]. split; [reflexivity|]. split; [exact C|]. split; [reflexivity|]. split; [apply d_cd_shaped|]. split; [apply sf_consistent; cbn; tauto|]. split; [apply sf_suits|]. split; [cbn; lia|].
  split; [constructor; [apply sf_delivers|constructor; [apply sf_delivers|constructor]]|]. split; [apply sf_delivers|]. split; [apply sf_answers|]. split; [apply sf_below|]. split; [discriminate|]. split; [lia|].
  split; [discriminate|]. do 3 (split; [reflexivity|]). split; [exact h_finite_box|]. split; [split; [reflexivity|split; [reflexivity|exact sf_unit]]|]. split; [reflexivity|]. split; [exact en_roomy|]. split; [exact sf_fuel|].
  split; [discriminate|split; discriminate].
Qed.
