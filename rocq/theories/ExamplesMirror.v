(** Cases that meet the hypotheses of C75, and the strategies for which the claim fails. *)
From Coq Require Import String ZArith List Arith Bool Lia.
From Flocq Require Import IEEE754.BinarySingleNaN.
From Verif Require Import Prelude F64 Num Np ListFacts Handlers Swarms Operators Generators Topology Optimizers Spec SpecLike SpecMirror Like MirrorFacts Mirror Demo.
Import ListNotations.
Local Open Scope string_scope.
Local Open Scope list_scope.
Local Open Scope nat_scope.

Definition first : list bool := [true; false].
Definition sameb (x y : f64) : bool := feq x y || (fisnan x && fisnan y).
Lemma sameb_ok : forall x y, sameb x y = true <-> same x y.
Proof. intros x y. unfold sameb, same. rewrite orb_true_iff, andb_true_iff. tauto. Qed.
Fixpoint mirb (fl : list bool) (r r' : frow) : bool :=
  match fl, r, r' with
  | [], [], [] => true
  | m :: fl, x :: r, x' :: r' => sameb (if m then fopp x else x) x' && mirb fl r r'
  | _, _, _ => false
  end.
Lemma mirb_ok : forall fl r r', mirb fl r r' = true <-> mirrored fl r r'.
Proof.
  induction fl as [|m fl IH]; intros [|x r] [|x' r']; cbn [mirb mirrored]; try (split; intros; solve [discriminate|contradiction|reflexivity|exact I]).
  rewrite andb_true_iff, IH, sameb_ok. reflexivity.
Qed.
Fixpoint comb (fl : list bool) (m m' : fmatrix) : bool :=
  match m, m' with [], [] => true | r :: m, r' :: m' => mirb fl r r' && comb fl m m' | _, _ => false end.
Lemma comb_ok : forall fl m m', comb fl m m' = true <-> Forall2 (mirrored fl) m m'.
Proof.
  intros fl. induction m as [|r m IH]; intros [|r' m']; cbn [comb]; try (split; intros H; solve [discriminate|constructor|inversion H|reflexivity]).
  rewrite andb_true_iff, IH, mirb_ok. split; [intros [A B]; constructor; assumption|intros H; inversion H; auto].
Qed.

(** A box that is not symmetric, and the box mirrored in its first dimension. *)
Definition m_bounds : bounds F64num := mkBounds (N := F64num) [F (-3); F (-3)] [F 5; F 4] true.
Definition m_bounds' : bounds F64num := mkBounds (N := F64num) [F (-5); F (-3)] [F 3; F 4] true.
Definition m_clamp : clamp_t F64num := ([F (-4); F (-4)], [F 4; F 4]).
Definition m_config (b : bounds F64num) (p : fmatrix) : config :=
  {| c_kind := GlobalBest; c_n := 2; c_d := 2; c_options := d_options; c_bounds := Some b; c_clamp := Some m_clamp; c_center := repeat fone 2; c_ftol := fninf; c_ftol_iter := 1; c_init := Some p;
     c_bh := "periodic"; c_vh := "zero"; c_oh := [] |}.
Definition m_c : config := m_config m_bounds [[F (-2); F 1]; [F 4; F 3]].
Definition m_c' : config := m_config m_bounds' [[F 2; F 1]; [F (-4); F 3]].
(** Distance of the first coordinate from -1, and from 1 in the mirrored space. *)
Definition m_obj (_ : nat) (X : fmatrix) : res (list f64) := Ok (map (fun r => fabs (fadd (nth 0 r fzero) fone)) X).
Definition m_obj' (_ : nat) (X : fmatrix) : res (list f64) := Ok (map (fun r => fabs (fadd (fopp (nth 0 r fzero)) fone)) X).
Definition m_e : env := d_env 2 2 m_obj.
Definition m_e' : env := d_env 2 2 m_obj'.
Definition m_dr (a b : Z) : create_draws := mkCd [] [] [[fofZe a (-4); fofZe 7 (-4)]; [fofZe b (-4); fofZe 14 (-4)]].
Lemma abs_zero : forall x y, same x y -> fabs x = fabs y.
Proof. intros x y H. destruct (same_cases _ _ H) as [<-|(s & s' & -> & ->)]; reflexivity. Qed.
Lemma m_cfg : mirrored_config first m_c m_c'.
Proof.
  unfold mirrored_config, m_c, m_c', m_config. cbn [c_kind c_n c_d c_options c_bounds c_clamp c_center c_ftol c_ftol_iter c_init c_bh c_vh c_oh maybe].
  repeat (split; [reflexivity|]). split; [|split; [|repeat split]]; unfold mirrored_bounds, mirrored_clamp, m_bounds, m_bounds', m_clamp; cbn [b_lb b_ub b_arr fst snd mirrored_box first].
  - split; [|reflexivity]. split; [split; apply sameb_ok; vm_compute; reflexivity|]. split; [vm_compute; reflexivity|]. split; [split; apply sameb_ok; vm_compute; reflexivity|]. split; [vm_compute; reflexivity|exact I].
  - split; [split; apply sameb_ok; vm_compute; reflexivity|]. split; [vm_compute; reflexivity|]. split; [split; apply sameb_ok; vm_compute; reflexivity|]. split; [vm_compute; reflexivity|exact I].
Qed.
Lemma m_envs : mirrored_env first m_e m_e'.
Proof.
  unfold mirrored_env. split; [|split; [|split; [|split; [|split]]]]; try reflexivity.
  - intros i X X' H. unfold m_e, m_e', d_env. cbn [e_obj]. unfold m_obj, m_obj'. apply f_equal. induction H as [|r r' X X' R H IH]; [reflexivity|]. cbn [map]. rewrite IH. apply f_equal2; [|reflexivity].
    destruct r as [|a r], r' as [|a' r']; cbn [mirrored first] in R; try contradiction. destruct R as [R _]. cbn [nth]. apply abs_zero, add_same; [|apply same_refl].
    unfold turned in R. apply opp_same in R. rewrite opp_opp in R. apply same_sym. exact R.
  - intros i. split; [|split]; reflexivity.
Qed.
Definition m_test (c c' : config) (dr dr' : create_draws) : bool :=
  match construct c star dr, construct c' star dr' with
  | Ok o, Ok o' => comb first (s_position (o_swarm o)) (s_position (o_swarm o')) && comb first (s_velocity (o_swarm o)) (s_velocity (o_swarm o'))
  | _, _ => false
  end.
Lemma m_starts : m_test m_c m_c' (m_dr 3 15) (m_dr 13 1) = true.
Proof. vm_compute. reflexivity. Qed.
Lemma m_test_ok : forall c c' dr dr', m_test c c' dr dr' = true -> exists o o', construct c star dr = Ok o /\ construct c' star dr' = Ok o' /\
  Forall2 (mirrored first) (s_position (o_swarm o)) (s_position (o_swarm o')) /\ Forall2 (mirrored first) (s_velocity (o_swarm o)) (s_velocity (o_swarm o')).
Proof.
  intros c c' dr dr' H. unfold m_test in H. destruct (construct c star dr) as [o|]; [|discriminate]. destruct (construct c' star dr') as [o'|]; [|discriminate].
  apply andb_prop in H. destruct H as [A B]. exists o, o'. repeat split; apply comb_ok; assumption.
Qed.
Lemma m_run_ok : is_ok (d_run m_c star (m_dr 3 15) m_e None 4) = true.
Proof. vm_compute. reflexivity. Qed.
(** The first coordinate of the result is not zero, and some particle has left the box on the way. *)
Definition m_left (o : ostate) (pos : frow) : bool :=
  negb (feq (nth 0 pos fzero) fzero) && existsb (fun p => any_out (N := F64num) (map2 (map2 fadd) (fst p) (snd p)) m_bounds) (combine (o_pos_history o) (tl (o_velocity_history o))).
Lemma m_run_left : d_test false (d_run m_c star (m_dr 3 15) m_e None 4) (fun o _ pos => m_left o pos) = true.
Proof. vm_compute. reflexivity. Qed.
Lemma mirror_demo : exists flips c c' e e' o o' dr dr' q cost pos,
  mirrored_config flips c c' /\ mirrored_env flips e e' /\ c_kind c <> Binary /\ c_bh c <> "shrink" /\ c_bh c <> "random" /\ (c_vh c = "invert" -> Forall (fun m => m = true) flips) /\ In true flips /\ In false flips /\
  construct c star dr = Ok o /\ construct c' star dr' = Ok o' /\ state_like (length flips) (mirrored flips) o o' /\ optimize c e None 4 o = (q, Ok (cost, pos)) /\ feq (nth 0 pos fzero) fzero = false /\
  exists x v, In (x, v) (combine (o_pos_history q) (tl (o_velocity_history q))) /\ any_out (N := F64num) (map2 (map2 fadd) x v) m_bounds = true /\ c_bounds c = Some m_bounds.
Proof.
  destruct (d_run_test _ _ _ _ _ _ _ _ _ _ m_run_ok m_run_left) as (o & q & cost & pos & C & _ & _ & E & D).
  destruct (m_test_ok _ _ _ _ m_starts) as (o2 & o' & C2 & C' & P & V). assert (o2 = o) by congruence. subst o2.
  unfold m_left in D. apply andb_prop in D. destruct D as [D1 D2]. apply negb_true_iff in D1. apply existsb_exists in D2. destruct D2 as ([x v] & IN & OUT). cbn [fst snd] in OUT.
  exists first, m_c, m_c', m_e, m_e', o, o', (m_dr 3 15), (m_dr 13 1), q, cost, pos. split; [exact m_cfg|]. split; [exact m_envs|]. split; [discriminate|]. split; [discriminate|]. split; [discriminate|].
  split; [discriminate|]. split; [left; reflexivity|]. split; [right; left; reflexivity|]. split; [exact C|]. split; [exact C'|]. split; [exact (mirror_construct _ _ _ _ _ _ _ _ m_cfg C C' P V)|].
  split; [exact E|]. split; [exact D1|]. exists x, v. split; [exact IN|]. split; [exact OUT|reflexivity].
Qed.

(** *** The strategies left out *)
Definition n_b : bounds F64num := mkBounds (N := F64num) [fzero; fzero] [fone; fone] true.
Definition n_b' : bounds F64num := mkBounds (N := F64num) [fopp fone; fzero] [fzero; fone] true.
Lemma n_bounds : mirrored_bounds first n_b n_b'.
Proof.
  split; [|reflexivity]. unfold n_b, n_b'. cbn [b_lb b_ub mirrored_box first]. split; [split; apply sameb_ok; vm_compute; reflexivity|]. split; [vm_compute; reflexivity|].
  split; [split; apply sameb_ok; vm_compute; reflexivity|]. split; [vm_compute; reflexivity|exact I].
Qed.
Definition n_test (r r' : res (fmatrix * option fmatrix)) : bool := match r, r' with Ok (p, _), Ok (p', _) => negb (comb first p p') | _, _ => false end.
Lemma n_test_ok : forall r r', n_test r r' = true -> exists p m p' m', r = Ok (p, m) /\ r' = Ok (p', m') /\ ~ Forall2 (mirrored first) p p'.
Proof.
  intros r r' H. unfold n_test in H. destruct r as [[p m]|]; [|discriminate]. destruct r' as [[p' m']|]; [|discriminate]. exists p, m, p', m'. split; [reflexivity|]. split; [reflexivity|].
  intros C. apply comb_ok in C. rewrite C in H. discriminate.
Qed.
(** A particle that has left through a lower face in one dimension and an upper face in the other. *)
Definition n_p : fmatrix := [[fopp fone; F 2]].
Definition n_p' : fmatrix := [[fone; F 2]].
Definition n_v : fmatrix := [[fone; fone]].
Definition n_v' : fmatrix := [[fopp fone; fone]].
Lemma n_invert : n_test (vh_call (N := F64num) "invert" None None (mkVk (N := F64num) (Some n_p) (Some (Some n_b)) None) n_v)
  (vh_call (N := F64num) "invert" None None (mkVk (N := F64num) (Some n_p') (Some (Some n_b')) None) n_v') = true.
Proof. vm_compute. reflexivity. Qed.
Lemma n_mirrored : comb first n_p n_p' = true /\ comb first n_v n_v' = true.
Proof. split; vm_compute; reflexivity. Qed.
Lemma invert_mirror : exists flips b b' (p p' v v' w w' : fmatrix) m m', mirrored_bounds flips b b' /\ Forall2 (mirrored flips) p p' /\ Forall2 (mirrored flips) v v' /\
  vh_call (N := F64num) "invert" None None (mkVk (N := F64num) (Some p) (Some (Some b)) None) v = Ok (w, m) /\
  vh_call (N := F64num) "invert" None None (mkVk (N := F64num) (Some p') (Some (Some b')) None) v' = Ok (w', m') /\ ~ Forall2 (mirrored flips) w w'.
Proof.
  destruct (n_test_ok _ _ n_invert) as (w & m & w' & m' & E & E' & D). exists first, n_b, n_b', n_p, n_p', n_v, n_v', w, w', m, m'.
  split; [exact n_bounds|]. split; [apply comb_ok, n_mirrored|]. split; [apply comb_ok, n_mirrored|]. split; [exact E|]. split; [exact E'|exact D].
Qed.
(** A particle that has not moved although it is outside. *)
Definition n_x : fmatrix := [[fopp fone; fhalf]].
Definition n_x' : fmatrix := [[fone; fhalf]].
Definition n_dr : bh_draws F64num := mkBhDraws (N := F64num) [fzero; fzero] [fzero; fzero] 0.
Lemma n_shrink : n_test (bh_call (N := F64num) "shrink" n_dr (Some n_x) n_b n_x) (bh_call (N := F64num) "shrink" n_dr (Some n_x') n_b' n_x') = true.
Proof. vm_compute. reflexivity. Qed.
Lemma n_mirrored2 : comb first n_x n_x' = true.
Proof. vm_compute. reflexivity. Qed.
Lemma shrink_mirror : exists flips dr b b' (y y' x x' p p' : fmatrix) m m', mirrored_bounds flips b b' /\ Forall2 (mirrored flips) y y' /\ Forall2 (mirrored flips) x x' /\
  bh_call (N := F64num) "shrink" dr (Some y) b x = Ok (p, m) /\ bh_call (N := F64num) "shrink" dr (Some y') b' x' = Ok (p', m') /\ ~ Forall2 (mirrored flips) p p'.
Proof.
  destruct (n_test_ok _ _ n_shrink) as (w & m & w' & m' & E & E' & D). exists first, n_dr, n_b, n_b', n_x, n_x', n_x, n_x', w, w', m, m'.
  split; [exact n_bounds|]. split; [apply comb_ok, n_mirrored2|]. split; [apply comb_ok, n_mirrored2|]. split; [exact E|]. split; [exact E'|exact D].
Qed.
