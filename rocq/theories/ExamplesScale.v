(** Cases that meet the hypotheses of C84, and a run with numbers so small that the claim fails. *)
From Coq Require Import String ZArith Reals List Arith Bool Lia Lra.
From Flocq Require Import Core IEEE754.BinarySingleNaN.
From Verif Require Import Prelude F64 F64Facts F64More Num Np ListFacts Handlers Swarms Operators Generators Topology Optimizers Spec SpecDyn SpecHandlers SpecLike SpecScale
  ScaleFacts Scale RunMain Demo ExamplesMirror.
Import ListNotations.
Local Open Scope string_scope.
Local Open Scope list_scope.
Local Open Scope nat_scope.

(** *** Tests *)
Definition gridb (l m : Z) (x : f64) : bool :=
  match x with
  | B754_zero _ => true
  | B754_finite _ _ e _ => (l <=? e)%Z && (e + 53 <=? m)%Z
  | _ => false
  end.
Lemma gridb_ok : forall l m x, gridb l m x = true -> grid l m x.
Proof.
  intros l m x H. destruct x as [s|s| |s p e B]; try discriminate H.
  - split; [reflexivity|]. cbn. split; [exists 0%Z; ring|]. rewrite Rabs_R0. apply bpow_ge_0.
  - cbn [gridb] in H. apply andb_prop in H. destruct H as [H1 H2]. apply Z.leb_le in H1. apply Z.leb_le in H2. split; [reflexivity|]. split.
    + apply (mult_le e); [exact H1|]. exists (SpecFloat.cond_Zopp s (Zpos p)). reflexivity.
    + cbn [B2R]. rewrite <- F2R_Zabs. replace (Z.abs (SpecFloat.cond_Zopp s (Zpos p))) with (Zpos p) by (destruct s; reflexivity).
      assert (P : (Zpos p < 2 ^ 53)%Z).
      { unfold SpecFloat.bounded in B. apply andb_prop in B. destruct B as [B _]. unfold SpecFloat.canonical_mantissa in B. apply Zeq_bool_eq in B. unfold SpecFloat.fexp, SpecFloat.emin, prec, emax in B.
        apply Z.lt_le_trans with (2 ^ (Zpos (SpecFloat.digits2_pos p)))%Z; [rewrite Digits.Zpos_digits2_pos; exact (Digits.Zpower_gt_Zdigits radix2 _ (Zpos p) (Z.le_refl _))|apply Z.pow_le_mono_r; lia]. }
      unfold F2R. cbn [Fnum Fexp]. apply Rle_trans with (bpow radix2 53 * bpow radix2 e)%R.
      * apply Rmult_le_compat_r; [apply bpow_ge_0|]. rewrite <- (IZR_Zpower radix2) by lia. apply IZR_le. change (Zpos p <= 2 ^ 53)%Z. lia.
      * rewrite <- bpow_plus. apply bpow_le. lia.
Qed.
Lemma pow_R : forall k, (-100 <= k <= 100)%Z -> ffinite (fofZe 1 k) = true /\ FR (fofZe 1 k) = bpow radix2 k.
Proof.
  intros k K. pose proof (fofZe_round 1 k) as R. assert (E : F2R (Float radix2 1 k) = bpow radix2 k) by (unfold F2R; cbn [Fnum Fexp]; ring). rewrite E in R.
  destruct (Tame.within_round _ _ k R) as [F _]; [rewrite Rabs_pos_eq by apply bpow_ge_0; lra|lia|]. split; [exact F|]. rewrite (is_round_finite_eq _ _ R F). pose proof (Tame.rnd_pow 1 k) as P. rewrite Rmult_1_l in P. apply P; lia.
Qed.
Definition scab (k : Z) (x y : f64) : bool := gridb (-400) 400 x && ffinite y && feq y (fmul (fofZe 1 k) x).
Lemma scab_ok : forall k x y, (-100 <= k <= 100)%Z -> scab k x y = true -> rescaled k x y /\ moderate x.
Proof.
  intros k x y K H. apply andb_prop in H. destruct H as [H H3]. apply andb_prop in H. destruct H as [H1 H2]. apply gridb_ok in H1. split; [|exact H1]. pose proof H1 as (F & M & B). split; [exact F|]. split; [exact H2|].
  destruct (pow_R k K) as [FK EK]. pose proof (fmul_round (fofZe 1 k) x FK F) as R. rewrite EK in R.
  assert (W : (Rabs (bpow radix2 k * FR x) <= bpow radix2 (k + 400))%R) by (rewrite Rabs_mult, (Rabs_pos_eq (bpow radix2 k)), bpow_plus by apply bpow_ge_0; apply Rmult_le_compat_l; [apply bpow_ge_0|exact B]).
  destruct (Tame.within_round _ _ _ R W) as [FM _]; [lia|]. pose proof (is_round_finite_eq _ _ R FM) as E. rewrite (rnd_scale (-400) k) in E by (auto; lia). rewrite rnd_id in E.
  apply feq_fin in H3; auto. rewrite H3. exact E.
Qed.
Fixpoint scarb (ks : list Z) (r r' : frow) : bool :=
  match ks, r, r' with
  | [], [], [] => true
  | k :: ks, x :: r, x' :: r' => scab k x x' && scarb ks r r'
  | _, _, _ => false
  end.
Lemma scarb_ok : forall ks r r', factors ks -> scarb ks r r' = true -> scaled ks r r' /\ Forall moderate r.
Proof.
  induction ks as [|k ks IH]; intros [|x r] [|x' r'] F H; cbn [scarb scaled] in *; try discriminate; [split; [exact Logic.I|constructor]|]. apply andb_prop in H. destruct H as [H1 H2]. inversion F; subst.
  destruct (scab_ok k x x') as [A B]; auto. destruct (IH r r') as [C D]; auto.
Qed.
Definition scamb (ks : list Z) (m m' : fmatrix) : bool := Nat.eqb (length m) (length m') && forallb (fun p => scarb ks (fst p) (snd p)) (combine m m').
Lemma scamb_ok : forall ks m m', factors ks -> scamb ks m m' = true -> Forall2 (scaled ks) m m'.
Proof.
  intros ks m m' F H. apply andb_prop in H. destruct H as [L H]. apply Nat.eqb_eq in L. revert m' L H. induction m as [|r m IH]; intros [|r' m'] L H; try discriminate L; [constructor|].
  cbn [combine forallb fst snd] in H. apply andb_prop in H. destruct H as [H1 H2]. constructor; [apply scarb_ok; assumption|apply IH; [exact (eq_add_S _ _ L)|exact H2]].
Qed.
Lemma draw_test : forallb (fun z => gridb (-60) 0 (fofZe (Z.of_nat z) (-4))) (seq 0 16) = true. Proof. vm_compute. reflexivity. Qed.
Lemma draw_grid : forall s i j, grid (-60) 0 (d_draw s i j).
Proof.
  intros s i j. apply gridb_ok. unfold d_draw. pose proof draw_test as T.
  rewrite forallb_forall in T. apply T. apply in_seq. pose proof (Nat.mod_upper_bound (i * 7 + j * 3 + s) 16). lia.
Qed.
Lemma draws_grid : forall n d obj, moderate_draws (d_env n d obj).
Proof.
  intros n d obj. split.
  - intros t i j r H. assert (E : exists s, entry (d_mat s n d) i j = Some r) by (destruct H as [H|H]; eexists; exact H). clear H. destruct E as (s & E). unfold entry in E. destruct (nth_error (d_mat s n d) i) as [row|] eqn:R; [|discriminate].
    unfold d_mat in R. rewrite nth_error_map in R. destruct (nth_error (seq 0 n) i) as [a|]; [|discriminate]. cbn in R. injection R as <-. rewrite nth_error_map in E. destruct (nth_error (seq 0 d) j) as [b|]; [|discriminate]. cbn [option_map] in E. injection E as <-. apply draw_grid.
  - intros t r H. cbn [d_env e_bh bd_greater bd_lower] in H. destruct H as [H|H]; apply repeat_spec in H; subst r; apply draw_grid.
Qed.
Definition coefb (opts : options F64num) : bool := forallb (fun key => match dget opts key with Some q => gridb (-60) 60 (pnum q) | None => true end) ["w"; "c1"; "c2"].
Lemma coefs_grid : forall c e iters, c_oh c = [] -> coefb (c_options c) = true -> moderate_coefficients c e iters.
Proof.
  intros c e iters O H t key v IN C. unfold coefb in H. rewrite forallb_forall in H. specialize (H key IN). destruct C as [(_ & q & Q & ->)|(s & S & _)]; [|rewrite O in S; discriminate S]. rewrite Q in H. apply gridb_ok. exact H.
Qed.
Definition recb (o : ostate) : bool := forallb (forallb (forallb (gridb (-400) 400))) (o_pos_history o ++ o_velocity_history o).
Lemma recb_ok : forall o, recb o = true -> moderate_record o.
Proof.
  intros o H X IN. unfold recb in H. rewrite forallb_forall in H. specialize (H X ltac:(apply in_or_app; exact IN)). apply Forall_forall. intros r R. rewrite forallb_forall in H. specialize (H r R).
  apply Forall_forall. intros x Q. rewrite forallb_forall in H. apply gridb_ok. exact (H x Q).
Qed.

(** *** A run in other units: the first dimension in eighths, the second in units of 32 *)
Definition z_ks : list Z := [3%Z; (-5)%Z].
Definition z_bounds : bounds F64num := mkBounds (N := F64num) [F (-24); fofZe (-3) (-5)] [F 40; fofZe 4 (-5)] true.
Definition z_clamp : clamp_t F64num := ([F (-32); fofZe (-4) (-5)], [F 32; fofZe 4 (-5)]).
Definition z_config (b : bounds F64num) (cl : clamp_t F64num) (p : fmatrix) : config :=
  {| c_kind := GlobalBest; c_n := 2; c_d := 2; c_options := d_options; c_bounds := Some b; c_clamp := Some cl; c_center := repeat fone 2; c_ftol := fninf; c_ftol_iter := 1; c_init := Some p;
     c_bh := "periodic"; c_vh := "invert"; c_oh := [] |}.
Definition z_c : config := z_config m_bounds m_clamp [[F (-2); F 1]; [F 4; F 3]].
Definition z_c' : config := z_config z_bounds z_clamp [[F (-16); fofZe 1 (-5)]; [F 32; fofZe 3 (-5)]].
(** Distance of the first coordinate from -1, that is from -8 in the new unit. *)
Definition z_obj (_ : nat) (X : fmatrix) : res (list f64) := Ok (map (fun r => fabs (fadd (fmul (fofZe 1 (-3)) (nth 0 r fzero)) fone)) X).
Definition z_e' : env := d_env 2 2 z_obj.
Lemma z_factors : factors z_ks. Proof. repeat constructor; lia. Qed.
Lemma z_lb : scarb z_ks (b_lb m_bounds) (b_lb z_bounds) = true. Proof. vm_compute. reflexivity. Qed.
Lemma z_ub : scarb z_ks (b_ub m_bounds) (b_ub z_bounds) = true. Proof. vm_compute. reflexivity. Qed.
Lemma z_lo : scarb z_ks (fst m_clamp) (fst z_clamp) = true. Proof. vm_compute. reflexivity. Qed.
Lemma z_hi : scarb z_ks (snd m_clamp) (snd z_clamp) = true. Proof. vm_compute. reflexivity. Qed.
Lemma z_order : forallb (fun p => flt (fst p) (snd p)) (combine (b_lb m_bounds) (b_ub m_bounds)) = true. Proof. vm_compute. reflexivity. Qed.
Lemma pairs_ok : forall (l u : frow), length l = length u -> forallb (fun p => flt (fst p) (snd p)) (combine l u) = true -> Forall2 (fun l u => flt l u = true) l u.
Proof.
  induction l as [|x l IH]; intros [|y u] L H; try discriminate L; [constructor|]. cbn [combine forallb fst snd] in H. apply andb_prop in H. destruct H as [H1 H2]. constructor; [exact H1|apply IH; [exact (eq_add_S _ _ L)|exact H2]].
Qed.
Lemma z_cfg : scaled_config z_ks z_c z_c'.
Proof.
  destruct (scarb_ok _ _ _ z_factors z_lb) as [A1 A2]. destruct (scarb_ok _ _ _ z_factors z_ub) as [B1 B2]. destruct (scarb_ok _ _ _ z_factors z_lo) as [C1 C2]. destruct (scarb_ok _ _ _ z_factors z_hi) as [D1 D2].
  unfold scaled_config, z_c, z_c', z_config. cbn [c_kind c_n c_d c_options c_bounds c_clamp c_center c_ftol c_ftol_iter c_init c_bh c_vh c_oh maybe].
  repeat (split; [reflexivity|]). split; [|split; [|repeat split]].
  - split; [exact A1|]. split; [exact B1|]. split; [reflexivity|]. split; [exact A2|]. split; [exact B2|]. apply pairs_ok; [reflexivity|exact z_order].
  - split; [exact C1|]. split; [exact D1|]. split; assumption.
Qed.
Lemma back : forall k x y, (-100 <= k <= 100)%Z -> rescaled k x y -> SpecMirror.same (fmul (fofZe 1 (- k)) y) x.
Proof.
  intros k x y K (F & G & E). destruct (pow_R (- k)) as [FK EK]; [lia|]. pose proof (fmul_round (fofZe 1 (- k)) y FK G) as R. rewrite EK, E, <- Rmult_assoc, <- bpow_plus in R.
  replace (- k + k)%Z with 0%Z in R by lia. change (bpow radix2 0) with 1%R in R. rewrite Rmult_1_l in R.
  assert (FM : ffinite (fmul (fofZe 1 (- k)) y) = true) by (apply (is_round_between _ _ x x R F F); split; apply Rle_refl).
  left. apply feq_fin; auto. rewrite (is_round_finite_eq _ _ R FM). apply rnd_id.
Qed.
Lemma z_envs : scaled_env z_ks m_e z_e'.
Proof.
  unfold scaled_env. split; [|split; [|split; [|split; [|split]]]]; try reflexivity.
  - intros i X X' H. unfold m_e, z_e', d_env. cbn [e_obj]. unfold m_obj, z_obj. apply f_equal. induction H as [|r r' X X' R H IH]; [reflexivity|]. cbn [map]. rewrite IH. apply f_equal2; [|reflexivity].
    destruct r as [|a r], r' as [|a' r']; cbn [scaled z_ks] in R; try contradiction. destruct R as [R _]. cbn [nth]. apply abs_zero, MirrorFacts.add_same; [|apply MirrorFacts.same_refl].
    apply (back 3 a a'); [lia|exact R].
  - intros i. split; [|split]; reflexivity.
Qed.
Definition z_test (c c' : config) (dr : create_draws) : bool :=
  match construct c star dr, construct c' star dr with
  | Ok o, Ok o' => scamb z_ks (s_position (o_swarm o)) (s_position (o_swarm o')) && scamb z_ks (s_velocity (o_swarm o)) (s_velocity (o_swarm o'))
  | _, _ => false
  end.
Lemma z_starts : z_test z_c z_c' (m_dr 3 15) = true. Proof. vm_compute. reflexivity. Qed.
Lemma z_test_ok : forall c c' dr, z_test c c' dr = true -> exists o o', construct c star dr = Ok o /\ construct c' star dr = Ok o' /\
  Forall2 (scaled z_ks) (s_position (o_swarm o)) (s_position (o_swarm o')) /\ Forall2 (scaled z_ks) (s_velocity (o_swarm o)) (s_velocity (o_swarm o')).
Proof.
  intros c c' dr H. unfold z_test in H. destruct (construct c star dr) as [o|]; [|discriminate]. destruct (construct c' star dr) as [o'|]; [|discriminate].
  apply andb_prop in H. destruct H as [A B]. exists o, o'. split; [reflexivity|]. split; [reflexivity|]. split; apply scamb_ok; auto using z_factors.
Qed.
Lemma z_coefs : coefb (c_options z_c) = true. Proof. vm_compute. reflexivity. Qed.
Lemma z_keys : NoDup (dkeys (c_options z_c)).
Proof. cbn. repeat constructor; cbn; intuition discriminate. Qed.
Lemma z_run_ok : is_ok (d_run z_c star (m_dr 3 15) m_e None 4) = true. Proof. vm_compute. reflexivity. Qed.
(** The record is moderate, the result is not zero, and some particle has left the box on the way. *)
Lemma z_run_left : d_test false (d_run z_c star (m_dr 3 15) m_e None 4) (fun o _ pos => recb o && m_left o pos) = true. Proof. vm_compute. reflexivity. Qed.
Lemma scale_demo : exists ks c c' e e' o o' dr q cost pos,
  factors ks /\ (forall k, In k ks -> k <> 0%Z) /\ scaled_config ks c c' /\ scaled_env ks e e' /\ c_kind c <> Binary /\ c_bh c <> "shrink" /\ NoDup (dkeys (c_options c)) /\ moderate_draws e /\ moderate_coefficients c e 4 /\ few_reflections c e /\
  construct c star dr = Ok o /\ construct c' star dr = Ok o' /\ state_like (length ks) (scaled ks) o o' /\ moderate_bests o /\ optimize c e None 4 o = (q, Ok (cost, pos)) /\ moderate_record q /\ feq (nth 0 pos fzero) fzero = false /\
  exists x v, In (x, v) (combine (o_pos_history q) (tl (o_velocity_history q))) /\ any_out (N := F64num) (map2 (map2 fadd) x v) m_bounds = true /\ c_bounds c = Some m_bounds.
Proof.
  destruct (d_run_test _ _ _ _ _ _ _ _ _ _ z_run_ok z_run_left) as (o & q & cost & pos & C & _ & _ & E & D).
  destruct (z_test_ok _ _ _ z_starts) as (o2 & o' & C2 & C' & P & V). assert (o2 = o) by congruence. subst o2.
  apply andb_prop in D. destruct D as [D0 D]. unfold m_left in D. apply andb_prop in D. destruct D as [D1 D2]. apply negb_true_iff in D1. apply existsb_exists in D2. destruct D2 as ([x v] & IN & OUT). cbn [fst snd] in OUT.
  destruct (scale_construct _ _ _ _ _ _ _ _ z_cfg C C' P V) as [SL MB].
  exists z_ks, z_c, z_c', m_e, z_e', o, o', (m_dr 3 15), q, cost, pos. split; [exact z_factors|]. split; [intros k [<-|[<-|[]]]; discriminate|]. split; [exact z_cfg|]. split; [exact z_envs|]. split; [discriminate|]. split; [discriminate|]. split; [exact z_keys|].
  split; [apply draws_grid|]. split; [apply coefs_grid; [reflexivity|exact z_coefs]|]. split; [intros R; discriminate R|]. split; [exact C|]. split; [exact C'|]. split; [exact SL|]. split; [exact MB|].
  split; [exact E|]. split; [apply recb_ok; exact D0|]. split; [exact D1|]. exists x, v. split; [exact IN|]. split; [exact OUT|reflexivity].
Qed.

(** *** Tiny numbers: half of the smallest positive number is rounded away *)
Definition t_config : config :=
  {| c_kind := GlobalBest; c_n := 1; c_d := 1; c_options := [("c1", PFloat (N := F64num) fzero); ("c2", PFloat (N := F64num) fzero); ("w", dec 5 10)]; c_bounds := None; c_clamp := None; c_center := [fone]; c_ftol := fninf; c_ftol_iter := 1; c_init := Some [[fzero]];
     c_bh := "periodic"; c_vh := "unmodified"; c_oh := [] |}.
Definition t_obj (_ : nat) (X : fmatrix) : res (list f64) := Ok (map (fun _ => fzero) X).
Definition t_e : env := d_env 1 1 t_obj.
Definition t_dr (k : Z) : create_draws := mkCd [] [] [[fofZe 1 k]].
Definition t_ks : list Z := [(-1)%Z].
Definition t_end (t : f64 -> bool) (o : ostate) (_ : f64) (_ : frow) : bool := match s_position (o_swarm o) with [[x]] => t x | _ => false end.
Lemma t_ok : forall b : bool, is_ok (d_run t_config star (t_dr (if b then -1073 else -1074)) t_e None 1) = true.
Proof. intros [|]; vm_compute; reflexivity. Qed.
Lemma t_big : d_test false (d_run t_config star (t_dr (-1073)) t_e None 1) (t_end (fun x => flt fzero x && ffinite x)) = true. Proof. vm_compute. reflexivity. Qed.
Lemma t_small : d_test false (d_run t_config star (t_dr (-1074)) t_e None 1) (t_end (fun x => feq x fzero && ffinite x)) = true. Proof. vm_compute. reflexivity. Qed.
Definition t_startb : bool :=
  match construct t_config star (t_dr (-1073)), construct t_config star (t_dr (-1074)) with
  | Ok o, Ok o' => match s_position (o_swarm o), s_velocity (o_swarm o), s_position (o_swarm o'), s_velocity (o_swarm o') with
                   | [[x]], [[v]], [[x']], [[v']] => feq x fzero && ffinite x && (feq x' fzero && ffinite x') && (feq v (fofZe 1 (-1073)) && ffinite v) && (feq v' (fofZe 1 (-1074)) && ffinite v')
                   | _, _, _, _ => false
                   end
  | _, _ => false
  end.
Lemma t_start : t_startb = true. Proof. vm_compute. reflexivity. Qed.
Lemma tiny_R : forall k, (k = -1073 \/ k = -1074)%Z -> ffinite (fofZe 1 k) = true /\ FR (fofZe 1 k) = bpow radix2 k.
Proof.
  intros k K. pose proof (fofZe_round 1 k) as R. assert (E : F2R (Float radix2 1 k) = bpow radix2 k) by (unfold F2R; cbn [Fnum Fexp]; ring). rewrite E in R.
  destruct (Tame.within_round _ _ k R) as [F _]; [rewrite Rabs_pos_eq by apply bpow_ge_0; lra|lia|]. split; [exact F|]. rewrite (is_round_finite_eq _ _ R F). pose proof (Tame.rnd_pow 1 k) as P. rewrite Rmult_1_l in P. apply P; lia.
Qed.
Lemma t_starts : exists o o', construct t_config star (t_dr (-1073)) = Ok o /\ construct t_config star (t_dr (-1074)) = Ok o' /\
  Forall2 (scaled t_ks) (s_position (o_swarm o)) (s_position (o_swarm o')) /\ Forall2 (scaled t_ks) (s_velocity (o_swarm o)) (s_velocity (o_swarm o')).
Proof.
  pose proof t_start as H. unfold t_startb in H. destruct (construct t_config star (t_dr (-1073))) as [o|]; [|discriminate]. destruct (construct t_config star (t_dr (-1074))) as [o'|]; [|discriminate]. exists o, o'.
  destruct (s_position (o_swarm o)) as [|[|x [|? ?]] [|? ?]]; try discriminate H. destruct (s_velocity (o_swarm o)) as [|[|v [|? ?]] [|? ?]]; try discriminate H.
  destruct (s_position (o_swarm o')) as [|[|x' [|? ?]] [|? ?]]; try discriminate H. destruct (s_velocity (o_swarm o')) as [|[|v' [|? ?]] [|? ?]]; try discriminate H.
  repeat (apply andb_prop in H; let Q := fresh "Q" in destruct H as [H Q]; try (apply andb_prop in Q; let Q' := fresh "Q" in destruct Q as [Q Q'])).
  destruct (tiny_R (-1073)) as [F1 E1]; [lia|]. destruct (tiny_R (-1074)) as [F2 E2]; [lia|].
  split; [reflexivity|]. split; [reflexivity|]. split; (constructor; [|constructor]); cbn [scaled t_ks]; (split; [|exact Logic.I]); (split; [assumption|]); (split; [assumption|]);
  repeat match goal with Q : feq ?a ?b = true |- _ => apply feq_fin in Q; [|assumption|first [assumption|reflexivity]] end.
  - repeat match goal with Q : FR _ = FR fzero |- _ => rewrite Q; clear Q end. change (FR fzero) with 0%R. ring.
  - repeat match goal with Q : FR _ = FR (fofZe _ _) |- _ => rewrite Q; clear Q end. rewrite E1, E2, <- bpow_plus. reflexivity.
Qed.
Lemma t_draws : moderate_draws t_e. Proof. apply draws_grid. Qed.
Lemma t_coefs : coefb (c_options t_config) = true. Proof. vm_compute. reflexivity. Qed.
Lemma scale_underflow : exists ks c e o o' q q' v v',
  factors ks /\ scaled_config ks c c /\ scaled_env ks e e /\ c_kind c <> Binary /\ c_bh c <> "shrink" /\ NoDup (dkeys (c_options c)) /\ moderate_draws e /\ moderate_coefficients c e 1 /\ few_reflections c e /\
  state_like (length ks) (scaled ks) o o' /\ moderate_bests o /\ optimize c e None 1 o = (q, Ok v) /\ optimize c e None 1 o' = (q', Ok v') /\ ~ Forall2 (scaled ks) (s_position (o_swarm q)) (s_position (o_swarm q')).
Proof.
  destruct (d_run_test _ _ _ _ _ _ _ _ _ _ (t_ok true) t_big) as (o & q & cost & pos & C & _ & _ & E & D).
  destruct (d_run_test _ _ _ _ _ _ _ _ _ _ (t_ok false) t_small) as (o' & q' & cost' & pos' & C' & _ & _ & E' & D').
  destruct t_starts as (o2 & o2' & C2 & C2' & P & V). assert (o2 = o) by congruence. assert (o2' = o') by congruence. subst o2 o2'.
  assert (G : factors t_ks) by (repeat constructor; lia).
  assert (CF : scaled_config t_ks t_config t_config) by (repeat split).
  destruct (scale_construct _ _ _ _ _ _ _ _ CF C C' P V) as [SL MB].
  exists t_ks, t_config, t_e, o, o', q, q', (cost, pos), (cost', pos'). split; [exact G|]. split; [exact CF|]. split.
  { unfold scaled_env. split; [|split; [|split; [|split; [|split]]]]; try reflexivity; [|intros i; split; [|split]; reflexivity].
    intros i X X' H. unfold t_e, d_env. cbn [e_obj]. unfold t_obj. apply f_equal. induction H as [|r r' X X' R H IH]; [reflexivity|]. cbn [map]. rewrite IH. reflexivity. }
  split; [discriminate|]. split; [discriminate|]. split; [cbn; repeat constructor; cbn; intuition discriminate|]. split; [exact t_draws|]. split; [apply coefs_grid; [reflexivity|exact t_coefs]|]. split; [intros R; discriminate R|].
  split; [exact SL|]. split; [exact MB|]. split; [exact E|]. split; [exact E'|]. intros Q. unfold t_end in D, D'.
  destruct (s_position (o_swarm q)) as [|[|x [|? ?]] [|? ?]]; try discriminate D. destruct (s_position (o_swarm q')) as [|[|x' [|? ?]] [|? ?]]; try discriminate D'.
  inversion Q as [|? ? ? ? R _]; subst. cbn [scaled t_ks] in R. destruct R as [(_ & _ & R) _]. apply andb_prop in D. destruct D as [D DF]. apply andb_prop in D'. destruct D' as [D' DF'].
  apply feq_fin in D'; [|assumption|reflexivity]. change (FR fzero) with 0%R in D'. apply flt_fin in D; [|reflexivity|assumption]. change (FR fzero) with 0%R in D.
  rewrite D' in R. pose proof (Rmult_lt_0_compat _ _ (bpow_gt_0 radix2 (-1)) D) as W. rewrite <- R in W. exact (Rlt_irrefl _ W).
Qed.
