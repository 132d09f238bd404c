(** Cases that meet the hypotheses of C79, and cases for which the claim fails without them. *)
From Coq Require Import String ZArith List Arith Bool Lia Reals.
From Flocq Require Import Core BinarySingleNaN.
From Verif Require Import Prelude F64 F64Facts Num Np ListFacts Handlers Swarms Operators Generators Topology Optimizers Spec SpecHandlers SpecMirror SpecTame SpecEverybody SpecAlone
  HandlerFacts MirrorFacts Demo ExamplesTame ExamplesEverybody.
From Verif Require Tame ExamplesSearch.
Import ListNotations.
Local Open Scope string_scope.
Local Open Scope list_scope.
Local Open Scope nat_scope.

(** The sum of the magnitudes. *)
Definition taxi (r : frow) : f64 := fold_left (fun a x => fadd a (fabs x)) r fzero.
(** Social draws taken from other iterations, and other neighbours. *)
Definition other_e (n d : nat) (obj : nat -> fmatrix -> res (list f64)) : env :=
  let e := d_env n d obj in mkEnv (e_obj e) (fun t => mkVd (N := F64num) (d_mat (t + 1) n d) (d_mat (t + 9) n d)) (e_bh e) (e_oh e) (fun _ => all_te n) (e_bits e) (e_exp e) (e_tree e).
Definition alone_c (n d : nat) (c2 : Z) (init : option fmatrix) : config :=
  {| c_kind := GlobalBest; c_n := n; c_d := d; c_options := [("c1", dec 5 10); ("c2", dec c2 10); ("w", dec 9 10); ("k", PInt 1); ("p", PInt 2); ("r", PInt 1)]; c_bounds := None; c_clamp := None;
     c_center := repeat fone d; c_ftol := fninf; c_ftol_iter := 1; c_init := init; c_bh := "periodic"; c_vh := "unmodified"; c_oh := [] |}.
Definition near_e (n d : nat) : env := d_env n d (fun _ X => Ok (map taxi X)).
Definition else_e (n d : nat) : env := other_e n d (fun _ X => Ok (map taxi X)).

Lemma abs_sign : forall x y, same x y -> fabs y = fabs x.
Proof. intros x y S. destruct (same_cases _ _ S) as [->|(s & s' & -> & ->)]; reflexivity. Qed.
Lemma taxi_same : forall r r', Forall2 same r r' -> taxi r' = taxi r.
Proof. intros r r' H. unfold taxi. generalize fzero. induction H as [|x y r r' S H IH]; intros a; [reflexivity|]. cbn [fold_left]. rewrite (abs_sign _ _ S). apply IH. Qed.
Lemma mat_finite : forall s n d i j r, entry (d_mat s n d) i j = Some r -> ffinite r = true.
Proof.
  intros s n d i j r H. destruct (entry_row _ _ _ _ H) as (q & Q & Qj). unfold d_mat in Q. apply nth_error_In, in_map_iff in Q. destruct Q as (a & <- & _).
  apply nth_error_In, in_map_iff in Qj. destruct Qj as (b & <- & _). destruct (ExamplesSearch.d_draw_unit s a b) as [U1 U2]. exact (proj1 (Tame.within_unit _ U1 U2)).
Qed.
Lemma alike_e : forall n d, same_but_social (near_e n d) (else_e n d).
Proof.
  intros n d. split; [|split; [reflexivity|split; [reflexivity|split; [reflexivity|split]]]].
  - intros i X X' H. change (Ok (map taxi X') = Ok (map taxi X)). f_equal. induction H as [|r r' X X' R H IH]; [reflexivity|]. cbn [map]. rewrite (taxi_same _ _ R), IH. reflexivity.
  - intros t i j r H. exact (mat_finite _ _ _ _ _ _ H).
  - intros t i j r H. exact (mat_finite _ _ _ _ _ _ H).
Qed.
Lemma alone_social : forall n d init, no_social (alone_c n d 0 init).
Proof. intros n d init. split; [reflexivity|]. exists (ndec (n := F64num) 0 10). split; [reflexivity|]. vm_compute. reflexivity. Qed.

(** The runs of the two objects, and a test of both. *)
Definition both (c : config) (kd : opt_kind) (k : topo_kind) (dr : create_draws) (e e' : env) (P : ostate -> ostate -> bool) : bool :=
  match construct c star dr, construct (with_kind c kd) (topo k false) dr with
  | Ok o, Ok o' => match optimize c e None 4 o, optimize (with_kind c kd) e' None 4 o' with (z, Ok _), (z', Ok _) => P z z' | _, _ => false end
  | _, _ => false
  end.
Lemma both_ok : forall c kd k dr e e' P, both c kd k dr e e' P = true ->
  exists o o' z z' y p y' p', construct c star dr = Ok o /\ construct (with_kind c kd) (topo k false) dr = Ok o' /\ optimize c e None 4 o = (z, Ok (y, p)) /\ optimize (with_kind c kd) e' None 4 o' = (z', Ok (y', p')) /\ P z z' = true.
Proof.
  intros c kd k dr e e' P H. unfold both in H. destruct (construct c star dr) as [o|] eqn:C; [|discriminate]. destruct (construct (with_kind c kd) (topo k false) dr) as [o'|] eqn:C'; [|discriminate].
  destruct (optimize c e None 4 o) as [z [[y p]|]] eqn:E; [|discriminate]. destruct (optimize (with_kind c kd) e' None 4 o') as [z' [[y' p']|]] eqn:E'; [|discriminate].
  exists o, o', z, z', y, p, y', p'. auto.
Qed.
Definition smallb (h : list fmatrix) : bool := forallb (forallb (forallb within_8b)) h.
Lemma smallb_ok : forall h, smallb h = true -> no_overflow h.
Proof.
  intros h H X I i j x E. destruct (entry_row _ _ _ _ E) as (r & R & Rj). unfold smallb in H. rewrite forallb_forall in H. specialize (H X I). rewrite forallb_forall in H. specialize (H r (nth_error_In _ _ R)).
  rewrite forallb_forall in H. apply within_8; [lia|]. apply H. exact (nth_error_In _ _ Rj).
Qed.
(** The positions differ somewhere. *)
Definition sameb (x y : f64) : bool := feq x y || (fisnan x && fisnan y).
Fixpoint all2 {A} (f : A -> A -> bool) (l m : list A) : bool := match l, m with [], [] => true | a :: l, b :: m => f a b && all2 f l m | _, _ => false end.
Lemma all2_ok : forall A (f : A -> A -> bool) (P : A -> A -> Prop), (forall a b, P a b -> f a b = true) -> forall l m, Forall2 P l m -> all2 f l m = true.
Proof. intros A f P H l m F. induction F as [|a b l m Q F IH]; [reflexivity|]. cbn. rewrite (H _ _ Q), IH. reflexivity. Qed.
Lemma ways_apart : forall z z', all2 (all2 (all2 sameb)) (o_pos_history z) (o_pos_history z') = false -> ~ same_ways z z'.
Proof.
  intros z z' H (W & _). rewrite (all2_ok _ _ (Forall2 (Forall2 same))) in H; [discriminate| |exact W]. apply all2_ok. apply all2_ok. intros a b [Q|[Q1 Q2]]; unfold sameb; [rewrite Q; reflexivity|rewrite Q1, Q2; apply orb_true_r].
Qed.
Definition apart (z z' : ostate) : bool := negb (all2 (all2 (all2 sameb)) (o_pos_history z) (o_pos_history z')).

(** A star and a ring in which every particle only looks at itself, under other social draws;
    the particles move and improve. *)
Definition below : fmatrix := [[F (-3); F (-2)]; [F (-2); F (-4)]; [F (-1); F (-3)]].
Definition better (z z' : ostate) : bool := smallb (o_pos_history z) && match o_cost_history z with [a; _; _; b] => flt b a | _ => false end.
Lemma alone_test : both (alone_c 3 2 0 (Some below)) LocalBest Ring (d_cd 2 3 2) (near_e 3 2) (else_e 3 2) better = true.
Proof. vm_compute. reflexivity. Qed.
Lemma alone_demo : exists c kd top top' dr e e' o o' z z' y p y' p', c_kind c <> Binary /\ kd <> Binary /\ c_bh c <> "shrink" /\ c_ftol c = fninf /\ no_social c /\ same_but_social e e' /\
  construct c top dr = Ok o /\ construct (with_kind c kd) top' dr = Ok o' /\ t_kind top = Star /\ t_kind top' = Ring /\ optimize c e None 4 o = (z, Ok (y, p)) /\ optimize (with_kind c kd) e' None 4 o' = (z', Ok (y', p')) /\ no_overflow (o_pos_history z) /\
  exists a b, nth_error (o_cost_history z) 0 = Some a /\ nth_error (o_cost_history z) 3 = Some b /\ flt b a = true.
Proof.
  destruct (both_ok _ _ _ _ _ _ _ alone_test) as (o & o' & z & z' & y & p & y' & p' & C & C' & E & E' & B). apply andb_prop in B. destruct B as [B1 B2].
  exists (alone_c 3 2 0 (Some below)), LocalBest, star, (topo Ring false), (d_cd 2 3 2), (near_e 3 2), (else_e 3 2), o, o', z, z', y, p, y', p'.
  split; [discriminate|]. split; [discriminate|]. split; [discriminate|]. split; [reflexivity|]. split; [apply alone_social|]. split; [apply alike_e|]. split; [exact C|]. split; [exact C'|]. split; [reflexivity|]. split; [reflexivity|].
  split; [exact E|]. split; [exact E'|]. split; [apply smallb_ok; exact B1|]. destruct (o_cost_history z) as [|a [|a1 [|a2 [|b [|a4 l]]]]]; try discriminate B2. exists a, b. split; [reflexivity|]. split; [reflexivity|exact B2].
Qed.
(** With a social coefficient the ways part. *)
Lemma social_test : both (alone_c 3 2 3 None) LocalBest Ring (d_cd 2 3 2) (near_e 3 2) (near_e 3 2) (fun z z' => smallb (o_pos_history z) && apart z z') = true.
Proof. vm_compute. reflexivity. Qed.
Lemma near_near : forall n d, same_but_social (near_e n d) (near_e n d).
Proof.
  intros n d. destruct (alike_e n d) as (A & _ & _ & _ & B & _). split; [exact A|]. repeat (split; [reflexivity|]). split; exact B.
Qed.
Lemma social_parts : exists c kd top top' dr e o o' z z' y p y' p', c_kind c <> Binary /\ kd <> Binary /\ c_bh c <> "shrink" /\ c_ftol c = fninf /\ c_oh c = [] /\ same_but_social e e /\
  construct c top dr = Ok o /\ construct (with_kind c kd) top' dr = Ok o' /\ optimize c e None 4 o = (z, Ok (y, p)) /\ optimize (with_kind c kd) e None 4 o' = (z', Ok (y', p')) /\ no_overflow (o_pos_history z) /\ ~ same_ways z z'.
Proof.
  destruct (both_ok _ _ _ _ _ _ _ social_test) as (o & o' & z & z' & y & p & y' & p' & C & C' & E & E' & B). apply andb_prop in B. destruct B as [B1 B2]. apply negb_true_iff in B2.
  exists (alone_c 3 2 3 None), LocalBest, star, (topo Ring false), (d_cd 2 3 2), (near_e 3 2), o, o', z, z', y, p, y', p'.
  split; [discriminate|]. split; [discriminate|]. split; [discriminate|]. split; [reflexivity|]. split; [reflexivity|]. split; [apply near_near|]. split; [exact C|]. split; [exact C'|].
  split; [exact E|]. split; [exact E'|]. split; [apply smallb_ok; exact B1|]. apply ways_apart. exact B2.
Qed.
(** Zero times an overflow is not a number: at opposite ends of the number line, the star's
    particles are lost and the ring's are not. *)
Definition ends : fmatrix := [[fofZe 1 1023]; [fofZe (-1) 1023]].
Lemma overflow_test : both (alone_c 2 1 0 (Some ends)) LocalBest Ring (d_cd 2 2 1) (near_e 2 1) (near_e 2 1) apart = true.
Proof. vm_compute. reflexivity. Qed.
Lemma overflow_parts : exists c kd top top' dr e o o' z z' y p y' p', c_kind c <> Binary /\ kd <> Binary /\ c_bh c <> "shrink" /\ c_ftol c = fninf /\ no_social c /\ same_but_social e e /\
  construct c top dr = Ok o /\ construct (with_kind c kd) top' dr = Ok o' /\ optimize c e None 4 o = (z, Ok (y, p)) /\ optimize (with_kind c kd) e None 4 o' = (z', Ok (y', p')) /\ ~ same_ways z z'.
Proof.
  destruct (both_ok _ _ _ _ _ _ _ overflow_test) as (o & o' & z & z' & y & p & y' & p' & C & C' & E & E' & B). apply negb_true_iff in B.
  exists (alone_c 2 1 0 (Some ends)), LocalBest, star, (topo Ring false), (d_cd 2 2 1), (near_e 2 1), o, o', z, z', y, p, y', p'.
  split; [discriminate|]. split; [discriminate|]. split; [discriminate|]. split; [reflexivity|]. split; [apply alone_social|]. split; [apply near_near|]. split; [exact C|]. split; [exact C'|].
  split; [exact E|]. split; [exact E'|]. apply ways_apart. exact B.
Qed.
