(** Cases that meet the hypotheses of C74, and the strategy for which the claim fails. *)
From Coq Require Import String ZArith List Arith Bool Permutation Lia.
From Flocq Require Import IEEE754.BinarySingleNaN.
From Verif Require Import Prelude F64 Num Np ListFacts Handlers Swarms Operators Generators Topology Optimizers Spec SpecLike SpecReorder Like Reorder Demo.
Import ListNotations.
Local Open Scope string_scope.
Local Open Scope list_scope.
Local Open Scope nat_scope.

Definition two : list nat := [1; 0].
Lemma two_perm : Permutation two (seq 0 (length two)).
Proof. apply perm_swap. Qed.
Definition flip {A} (r : list A) : list A := match r with [a; b] => [b; a] | _ => r end.
Lemma flip_re : forall A (r : list A), length r = 2 -> reordered two r (flip r).
Proof.
  intros A [|a [|b [|]]] H; try discriminate. split; [reflexivity|]. split; [reflexivity|].
  intros [|[|j]] k J; cbn in J; [injection J as <-; reflexivity|injection J as <-; reflexivity|destruct j; discriminate].
Qed.
Lemma re_flip : forall A (r r' : list A), reordered two r r' -> flip r' = r.
Proof.
  intros A r r' (H1 & H2 & H3). destruct r as [|a [|b [|]]]; try discriminate. destruct r' as [|a' [|b' [|]]]; try discriminate.
  pose proof (H3 0 1 eq_refl) as E1. pose proof (H3 1 0 eq_refl) as E2. cbn in E1, E2. injection E1 as ->. injection E2 as ->. reflexivity.
Qed.
Lemma flip_co : forall A (m : list (list A)), Forall (fun r => length r = 2) m -> columns two m (map flip m).
Proof. intros A m H. induction H as [|r m R F IH]; cbn; constructor; [apply flip_re; exact R|exact IH]. Qed.
Lemma co_flip : forall A (m m' : list (list A)), columns two m m' -> map flip m' = m.
Proof. intros A m m' H. induction H as [|r r' m m' R F IH]; [reflexivity|]. cbn. rewrite (re_flip _ _ _ R), IH. reflexivity. Qed.
Lemma d_mat_two : forall s n, Forall (fun r => length r = 2) (d_mat s n 2).
Proof. intros s n. unfold d_mat. apply Forall_forall. intros r R. apply in_map_iff in R. destruct R as (i & <- & _). reflexivity. Qed.

(** A box whose sides differ, and the box with its sides exchanged. *)
Definition z_bounds : bounds F64num := mkBounds (N := F64num) [F (-5); F (-3)] [F 5; F 4] true.
Definition z_bounds' : bounds F64num := mkBounds (N := F64num) [F (-3); F (-5)] [F 4; F 5] true.
Definition z_c (k : opt_kind) : config := d_config k 3 2 (Some z_bounds) None "periodic" "invert".
Definition z_c' (k : opt_kind) : config := d_config k 3 2 (Some z_bounds') None "periodic" "invert".
(** The objective is the first coordinate; in the other order it is the second. *)
Definition z_e : env := d_env 3 2 d_first.
Definition z_e' : env :=
  {| e_obj := fun i X => d_first i (map flip X);
     e_vel := fun t => mkVd (N := F64num) (map flip (d_mat (t + 1) 3 2)) (map flip (d_mat (t + 4) 3 2));
     e_bh := fun t => mkBhDraws (N := F64num) (flip (repeat (d_draw t 1 1) 2)) (flip (repeat (d_draw t 2 1) 2)) 8;
     e_oh := e_oh z_e; e_top := e_top z_e; e_bits := fun t => flip (map (fun j => d_draw t 3 j) (seq 0 2)); e_exp := e_exp z_e; e_tree := e_tree z_e |}.
Definition z_dr : create_draws := d_cd 3 3 2.
Definition z_dr' : create_draws := mkCd (map flip (cd_pos z_dr)) (map flip (cd_bits z_dr)) (map flip (cd_vel z_dr)).
Lemma z_config : forall k, config_like two (z_c k) (z_c' k).
Proof.
  intros k. unfold config_like, z_c, z_c', d_config. cbn [c_kind c_n c_d c_options c_bounds c_clamp c_center c_ftol c_ftol_iter c_init c_bh c_vh c_oh maybe].
  repeat (split; [reflexivity|]). split. { split; [|split]; [exact (flip_re f64 [F (-5); F (-3)] eq_refl)|exact (flip_re f64 [F 5; F 4] eq_refl)|reflexivity]. }
  split; [exact I|]. split; [exact (flip_re f64 [fone; fone] eq_refl)|]. split; [reflexivity|]. split; [reflexivity|]. split; [exact I|]. repeat split.
Qed.
Lemma z_env : env_like two z_e z_e'.
Proof.
  unfold env_like. split; [|split; [|split; [|split; [|split; [|split; [|split]]]]]].
  - intros i X X' H. unfold z_e, z_e', d_env. cbn [e_obj]. unfold d_first. rewrite (co_flip _ _ _ H). reflexivity.
  - intros i. split; apply flip_co, d_mat_two.
  - intros i. split; [|split]; [exact (flip_re f64 (repeat (d_draw i 1 1) 2) eq_refl)|exact (flip_re f64 (repeat (d_draw i 2 1) 2) eq_refl)|reflexivity].
  - intros i. reflexivity.
  - intros i. split; [|split]; reflexivity.
  - intros i. exact (flip_re f64 (map (fun j => d_draw i 3 j) (seq 0 2)) eq_refl).
  - reflexivity.
  - reflexivity.
Qed.
Lemma z_draws : draws_like two z_dr z_dr'.
Proof.
  split; [|split]; apply flip_co; [apply d_mat_two| |apply d_mat_two]. unfold z_dr, d_cd. cbn [cd_bits]. apply Forall_forall. intros r R. apply in_map_iff in R. destruct R as (i & <- & _). reflexivity.
Qed.
Lemma z_run_ok : is_ok (d_run (z_c GlobalBest) star z_dr z_e None 4) = true.
Proof. vm_compute. reflexivity. Qed.
Definition z_differ (pos : frow) : bool := match pos with [a; b] => negb (feq a b) | _ => false end.
Lemma z_run_differ : d_test false (d_run (z_c GlobalBest) star z_dr z_e None 4) (fun _ _ pos => z_differ pos) = true.
Proof. vm_compute. reflexivity. Qed.
Lemma z_ring_ok : is_ok (d_run (z_c LocalBest) (topo Ring false) z_dr z_e None 4) = true.
Proof. vm_compute. reflexivity. Qed.
(** Two runs that start in reordered states; the two coordinates of the result differ. *)
Lemma reorder_demo : exists order c c' e e' o o' dr dr' q cost pos a b,
  Permutation order (seq 0 (length order)) /\ order <> seq 0 (length order) /\ config_like order c c' /\ env_like order e e' /\ c_bh c <> "shrink" /\ draws_like order dr dr' /\
  construct c star dr = Ok o /\ construct c' star dr' = Ok o' /\ state_like (length order) (reordered order) o o' /\ optimize c e None 4 o = (q, Ok (cost, pos)) /\ pos = [a; b] /\ feq a b = false.
Proof.
  destruct (d_run_test _ _ _ _ _ _ _ _ _ _ z_run_ok z_run_differ) as (o & q & cost & pos & C & _ & _ & E & D).
  pose proof (construct_co two two_perm (z_c GlobalBest) (z_c' GlobalBest) (z_config GlobalBest) star z_dr z_dr' z_draws) as R. rewrite C in R.
  destruct (construct (z_c' GlobalBest) star z_dr') as [o'|x] eqn:C'; [|contradiction].
  destruct pos as [|a [|b [|]]]; try discriminate. cbn [z_differ] in D. apply negb_true_iff in D.
  exists two, (z_c GlobalBest), (z_c' GlobalBest), z_e, z_e', o, o', z_dr, z_dr', q, cost, [a; b], a, b.
  split; [exact two_perm|]. split; [discriminate|]. split; [apply z_config|]. split; [exact z_env|]. split; [discriminate|]. split; [exact z_draws|].
  split; [exact C|]. split; [exact C'|]. split; [exact R|]. split; [exact E|]. split; [reflexivity|exact D].
Qed.

(** *** The strategy "shrink" *)
(** The two coordinates leave the box on different sides from its border; the coefficients are -0 and +0 and the first of them is the minimum. *)
Definition y_b : bounds F64num := mkBounds (N := F64num) [fzero; fzero] [fone; fone] true.
Definition y_dr : bh_draws F64num := mkBhDraws (N := F64num) [fzero; fzero] [fzero; fzero] 0.
Definition y_m : fmatrix := [[fopp fzero; fone]].
Definition y_x : fmatrix := [[fopp fone; F 2]].
Definition y_test (r r' : res (fmatrix * option fmatrix)) : bool :=
  match r, r' with Ok ([[a; _]], _), Ok ([[_; b]], _) => xorb (Bsign a) (Bsign b) | _, _ => false end.
Lemma y_differ : y_test (bh_call (N := F64num) "shrink" y_dr (Some y_m) y_b y_x) (bh_call (N := F64num) "shrink" y_dr (Some (map flip y_m)) y_b (map flip y_x)) = true.
Proof. vm_compute. reflexivity. Qed.
Lemma y_test_ok : forall r r', y_test r r' = true -> exists p m p' m', r = Ok (p, m) /\ r' = Ok (p', m') /\ ~ columns two p p'.
Proof.
  intros r r' H. unfold y_test in H. destruct r as [[[|[|a [|a2 [|]]] [|]] m]|]; try discriminate. destruct r' as [[[|[|b2 [|b [|]]] [|]] m']|]; try discriminate.
  exists [[a; a2]], m, [[b2; b]], m'. split; [reflexivity|]. split; [reflexivity|]. intros C. inversion C as [|u v w z R _]; subst. destruct R as (_ & _ & R). pose proof (R 1 0 eq_refl) as E.
  cbn in E. injection E as ->. rewrite xorb_nilpotent in H. discriminate.
Qed.
Lemma shrink_order : exists order dr mem mem' b (x x' p p' : fmatrix) m m',
  Permutation order (seq 0 (length order)) /\ bounds_like order b b /\ columns order mem mem' /\ columns order x x' /\
  bh_call (N := F64num) "shrink" dr (Some mem) b x = Ok (p, m) /\ bh_call (N := F64num) "shrink" dr (Some mem') b x' = Ok (p', m') /\ ~ columns order p p'.
Proof.
  destruct (y_test_ok _ _ y_differ) as (p & m & p' & m' & E & E' & D).
  exists two, y_dr, y_m, (map flip y_m), y_b, y_x, (map flip y_x), p, p', m, m'. split; [exact two_perm|].
  split. { split; [|split]; [exact (flip_re f64 [fzero; fzero] eq_refl)|exact (flip_re f64 [fone; fone] eq_refl)|reflexivity]. }
  split; [apply flip_co; repeat constructor|]. split; [apply flip_co; repeat constructor|]. split; [exact E|]. split; [exact E'|exact D].
Qed.
